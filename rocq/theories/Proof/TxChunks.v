(** Transactions fed in pieces. *)
From Coq Require Import Lia.
From Verif Require Import Base.Bytes Base.BytesFacts Model.Conversion Model.Stream Model.Script Model.Tx
  Spec.Wire Proof.StreamFacts Proof.Chunks Proof.Phases Proof.TxIo Proof.ListPhase Proof.TxPhases.
Open Scope Z_scope.

Ltac t_cbn := cbn [t_version t_ins t_outs t_lock t_segflag t_status t_parsed] in *.

Section Kind.
(* 0: only transactions without the segwit marker; 1: only those with it *)
Variable sg : Z.
Hypothesis SG : sg = 0 \/ sg = 1.
Notation Hd := (5 + 2 * sg).

Definition live (s : tx) : Prop :=
  t_segflag s = (if t_parsed s <? 5 then 0 else sg) /\
  Forall in_fine (t_ins s) /\ lclean ti_status (t_ins s) /\ Forall out_fine (t_outs s) /\ lclean to_status (t_outs s) /\
  ((t_parsed s < Hd /\ t_ins s = [] /\ t_outs s = []) \/
   (t_parsed s = Hd + ins_at (t_ins s) /\ t_outs s = []) \/
   (ldone ti_status (t_ins s) /\ t_parsed s = Hd + ins_at (t_ins s) + 1 + outs_at (t_outs s)) \/
   (sg = 0 /\ ldone ti_status (t_ins s) /\ ldone to_status (t_outs s) /\
      Hd + ins_at (t_ins s) + 1 + outs_at (t_outs s) < t_parsed s <= Hd + ins_at (t_ins s) + 1 + outs_at (t_outs s) + 4)).
Definition tI (s : tx) : Prop :=
  0 <= t_parsed s /\ match t_status s with DONE => False | FAILED => 5 <= t_parsed s | INCOMPLETE => live s end.

Definition waiting (s : tx) (p : Z) : bool := pstatus_eqb (t_status s) INCOMPLETE && (t_parsed s =? p).
Definition q1 : @phase tx := fun s st =>
  let! x := read_loop_o 4 (t_parsed s) (acc32 0) (t_version s) st in
  let '(v, p, r) := x in Ok (mkTx v (t_ins s) (t_outs s) (t_lock s) (t_segflag s) (t_status s) p, r).
Definition set_ins (s : tx) (l : list txin) (p : Z) : tx :=
  mkTx (t_version s) l (t_outs s) (t_lock s) (t_segflag s) (t_status s) p.
Definition set_outs (s : tx) (l : list txout) (p : Z) : tx :=
  mkTx (t_version s) (t_ins s) l (t_lock s) (t_segflag s) (t_status s) p.
Definition q2 : @phase tx := byte_phase (fun s => waiting s 4)
  (fun s c => if c =? 0
              then if sg =? 1 then mkTx (t_version s) (t_ins s) (t_outs s) (t_lock s) 1 (t_status s) (t_parsed s + 1)
                   else t_fail s (t_parsed s + 1)
              else if sg =? 1 then t_fail s (t_parsed s + 1)
                   else set_ins s (repeat in1 (Z.to_nat c)) (t_parsed s + 1)).
Definition q3 : @phase tx := byte_phase (fun s => (0 <? t_segflag s) && waiting s 5)
  (fun s c => if c =? 1 then set_ins s (t_ins s) (t_parsed s + 1) else t_fail s (t_parsed s + 1)).
Definition q4 : @phase tx := byte_phase (fun s => (0 <? t_segflag s) && waiting s 6)
  (fun s c => set_ins s (repeat in1 (Z.to_nat c)) (t_parsed s + 1)).
Definition q5 : @phase tx := list_phase txin_parse ti_status t_ins set_ins.
Definition q6 : @phase tx := byte_phase (fun s => waiting s (5 + 2 * t_segflag s + zsum (map txin_length (t_ins s))))
  (fun s c => set_outs s (repeat out1 (Z.to_nat c)) (t_parsed s + 1)).
Definition q7 : @phase tx := list_phase txout_parse to_status t_outs set_outs.

Definition D1 (s : tx) : Prop := 4 <= t_parsed s.
Definition D2 (s : tx) : Prop := 5 <= t_parsed s.
Definition D3 (s : tx) : Prop := t_bad s \/ (5 <= t_parsed s /\ (sg = 1 -> 6 <= t_parsed s)).
Definition D4 (s : tx) : Prop := t_bad s \/ Hd <= t_parsed s.
Definition D5 (s : tx) : Prop := t_bad s \/ (Hd <= t_parsed s /\ ldone ti_status (t_ins s)).
Definition D6 (s : tx) : Prop := t_bad s \/ (Hd + ins_at (t_ins s) < t_parsed s /\ Hd <= t_parsed s /\ ldone ti_status (t_ins s)).
Definition D7 (s : tx) : Prop := t_bad s \/
  (Hd + ins_at (t_ins s) < t_parsed s /\ Hd <= t_parsed s /\ ldone ti_status (t_ins s) /\ ldone to_status (t_outs s)).

Lemma waiting_true : forall s p, tI s -> waiting s p = true -> t_status s = INCOMPLETE /\ live s /\ t_parsed s = p.
Proof.
  intros s p [_ I] W. unfold waiting in W. apply andb_true_iff in W as [W1 W2]. apply Z.eqb_eq in W2.
  destruct (t_status s); try discriminate. auto.
Qed.
Lemma waiting_false : forall s p, tI s -> waiting s p = false -> t_bad s \/ (t_status s = INCOMPLETE /\ live s /\ t_parsed s <> p).
Proof.
  intros s p [_ I] W. unfold waiting, t_bad in *. destruct (t_status s); [tauto| |auto]. right. cbn in W. apply Z.eqb_neq in W. auto.
Qed.
Lemma not_waiting : forall s p, t_bad s \/ t_parsed s <> p -> waiting s p = false.
Proof.
  intros s p H. unfold waiting, t_bad in *. destruct H as [->|H]; auto. apply andb_false_iff. right. apply Z.eqb_neq. auto.
Qed.
Lemma bad_pos : forall s, tI s -> t_bad s -> 5 <= t_parsed s.
Proof. intros s [_ I] B. unfold t_bad in B. rewrite B in I. exact I. Qed.
Lemma fail_I : forall s p, 5 <= p -> tI (t_fail s p).
Proof. intros s p H. split; cbn; lia. Qed.
Lemma live_stage : forall s, live s -> Hd <= t_parsed s -> Hd + ins_at (t_ins s) <= t_parsed s \/ (t_ins s = [] /\ False).
Proof.
  intros s (L1 & L2 & L3 & L4 & L5 & L6) H. pose proof (ins_at_nonneg _ L2 L3). pose proof (outs_at_nonneg _ L4 L5). left. lia.
Qed.

Lemma ph1 : ph t_bad tI (fun _ => True) D1 q1.
Proof.
  apply (ph_loop t_bad tI (fun _ => True) t_version t_parsed
    (fun s v p => mkTx v (t_ins s) (t_outs s) (t_lock s) (t_segflag s) (t_status s) p) (fun _ => 4) (fun _ => acc32 0)); auto.
  - intros []; reflexivity.
  - intros s IS B. apply bad_pos in IS; auto. lia.
  - intros s st a p r IS _ _ E. split; auto. apply read_loop_o_pos in E as (Q1 & Q2 & Q3 & Q4 & _).
    destruct IS as [I1 I2]. split; t_cbn; [lia|]. destruct (t_status s); auto; [|lia].
    destruct I2 as (L1 & L2 & L3 & L4 & L5 & L6). destruct (Z.le_gt_cases 4 (t_parsed s)).
    { replace p with (t_parsed s) by lia. split; t_cbn; auto. }
    assert (t_ins s = [] /\ t_outs s = []) as [E1 E2].
    { pose proof (ins_at_nonneg _ L2 L3). pose proof (outs_at_nonneg _ L4 L5). destruct L6 as [L6|[L6|[L6|L6]]]; [tauto|lia|lia|lia]. }
    split; t_cbn; [destruct (Z.ltb_spec (t_parsed s) 5), (Z.ltb_spec p 5); try lia; auto|].
    rewrite E1, E2. repeat split; try constructor. split; [lia|auto].
Qed.
Lemma ph2 : ph t_bad tI D1 D2 q2.
Proof.
  apply ph_byte.
  - intros s IS P W. unfold D1, D2 in *. apply waiting_false in W as [B|(_ & _ & W)]; auto; [apply bad_pos; auto|lia].
  - intros s IS D. apply not_waiting. unfold D2 in D. right. lia.
  - intros s IS B. apply bad_pos; auto.
  - intros s c IS P W BC. apply waiting_true in W as (S & L & W); auto. unfold D1, D2. rewrite W. change (4 + 1) with 5.
    destruct L as (L1 & L2 & L3 & L4 & L5 & L6). rewrite W in *. pose proof (ins_at_nonneg _ L2 L3). pose proof (outs_at_nonneg _ L4 L5).
    assert (t_ins s = [] /\ t_outs s = []) as [E1 E2].
    { destruct L6 as [L6|[L6|[L6|L6]]]; [tauto|lia|lia|lia]. }
    assert (O5 : t_parsed (t_fail s 5) = 5) by reflexivity.
    destruct (c =? 0); (destruct (Z.eqb_spec sg 1) as [G|G]); unfold set_ins; cbn [t_fail t_parsed];
      (split; [|lia]); try (apply fail_I; lia); (split; t_cbn; [lia|]); rewrite S; split; t_cbn; change (5 <? 5) with false; cbv iota;
      rewrite ?E1, ?E2; auto.
    + repeat split; try constructor. split; [lia|auto].
    + change (4 <? 5) with true in L1. cbv iota in L1. lia.
    + split; [apply fresh_ok, in1_fine|]. split; [apply fresh_clean; reflexivity|]. split; [constructor|]. split; [constructor|].
      right. left. rewrite zat_fresh by reflexivity. split; [lia|auto].
Qed.
Lemma ph3 : ph t_bad tI D2 D3 q3.
Proof.
  apply ph_byte.
  - intros s IS P W. unfold D2, D3 in *. apply andb_false_iff in W as [W|W].
    + destruct IS as [_ IS]. unfold t_bad. destruct (t_status s); [tauto| |auto]. destruct IS as (L1 & _).
      right. destruct (Z.ltb_spec (t_parsed s) 5); [lia|]. apply Z.ltb_ge in W. lia.
    + apply waiting_false in W as [B|(_ & _ & W)]; auto. right. lia.
  - intros s IS [D|D]; [rewrite not_waiting by auto; apply andb_false_r|].
    destruct SG as [G|G].
    + destruct (waiting s 5) eqn:W; [|apply andb_false_r]. apply waiting_true in W as (_ & (L1 & _) & W); auto.
      rewrite L1. destruct (t_parsed s <? 5); rewrite ?G; reflexivity.
    + rewrite not_waiting by lia. apply andb_false_r.
  - intros s IS B. left. auto.
  - intros s c IS P W BC. apply andb_true_iff in W as [W0 W]. apply waiting_true in W as (S & L & W); auto.
    unfold D2, D3. rewrite W. change (5 + 1) with 6. apply Z.ltb_lt in W0.
    destruct L as (L1 & L2 & L3 & L4 & L5 & L6). rewrite W in L1. change (5 <? 5) with false in L1. cbv iota in L1.
    assert (G : sg = 1) by lia. rewrite W, G in *.
    pose proof (ins_at_nonneg _ L2 L3). pose proof (outs_at_nonneg _ L4 L5).
    assert (t_ins s = [] /\ t_outs s = []) as [E1 E2].
    { destruct L6 as [L6|[L6|[L6|L6]]]; [tauto|lia|lia|lia]. }
    destruct (c =? 1); unfold set_ins; cbn [t_fail t_parsed]; (split; [|split; [lia|right; lia]]); try (apply fail_I; lia).
    split; t_cbn; [lia|]. rewrite S. split; t_cbn; [change (6 <? 5) with false; cbv iota; lia|]. rewrite E1, E2. repeat split; try constructor. split; [lia|auto].
Qed.
Lemma ph4 : ph t_bad tI D3 D4 q4.
Proof.
  apply ph_byte.
  - intros s IS P W. unfold D3, D4 in *. destruct P as [P|[P1 P2]]; [auto|]. apply andb_false_iff in W as [W|W].
    + destruct IS as [_ IS]. unfold t_bad. destruct (t_status s); [tauto| |auto]. destruct IS as (L1 & _).
      right. destruct (Z.ltb_spec (t_parsed s) 5); [lia|]. apply Z.ltb_ge in W. lia.
    + apply waiting_false in W as [B|(_ & _ & W)]; auto. right. lia.
  - intros s IS [D|D]; [rewrite not_waiting by auto; apply andb_false_r|].
    destruct SG as [G|G].
    + destruct (waiting s 6) eqn:W; [|apply andb_false_r]. apply waiting_true in W as (_ & (L1 & _) & W); auto.
      rewrite L1. destruct (t_parsed s <? 5); rewrite ?G; reflexivity.
    + rewrite not_waiting by lia. apply andb_false_r.
  - intros s IS B. left. auto.
  - intros s c IS P W BC. apply andb_true_iff in W as [W0 W]. apply waiting_true in W as (S & L & W); auto.
    unfold D3, D4. rewrite W. change (6 + 1) with 7. apply Z.ltb_lt in W0.
    destruct L as (L1 & L2 & L3 & L4 & L5 & L6). rewrite W in L1. change (6 <? 5) with false in L1. cbv iota in L1.
    assert (G : sg = 1) by lia. rewrite W, G in *.
    pose proof (ins_at_nonneg _ L2 L3). pose proof (outs_at_nonneg _ L4 L5).
    assert (t_ins s = [] /\ t_outs s = []) as [E1 E2].
    { destruct L6 as [L6|[L6|[L6|L6]]]; [tauto|lia|lia|lia]. }
    unfold set_ins; cbn [t_parsed]. (split; [|split; [right; lia|right; lia]]).
    split; t_cbn; [lia|]. rewrite S. split; t_cbn; [change (7 <? 5) with false; cbv iota; lia|]. rewrite E2.
    split; [apply fresh_ok, in1_fine|]. split; [apply fresh_clean; reflexivity|]. split; [constructor|]. split; [constructor|].
    right. left. rewrite zat_fresh by reflexivity. split; [lia|auto].
Qed.
Lemma ph5 : ph t_bad tI D4 (fun s => t_bad s \/ ldone ti_status (t_ins s)) q5.
Proof.
  apply (ph_list txin_parse ti_status in_fine ti_parsed in_two in_step t_ins set_ins); try reflexivity.
  - intros []; reflexivity.
  - intros s [_ IS] NB. destruct (t_status s) eqn:S; [tauto| |exfalso; apply NB; exact S]. split; apply IS.
  - intros s IS P. split; [|left; reflexivity]. apply fail_I. destruct P as [P|P]; [apply bad_pos; auto|lia].
  - intros s l n r IS P NB C F Z Ln [a R]. destruct P as [P|P]; [tauto|].
    destruct IS as [I1 I2]. destruct (t_status s) eqn:S; [tauto| |exfalso; apply NB; exact S].
    pose proof I2 as (L1 & L2 & L3 & L4 & L5 & L6). 
    destruct (Z.ltb_spec (t_parsed s) 5); [lia|].
    assert (DN : ldone ti_status (t_ins s) -> l = t_ins s /\ n = 0).
    { intros D. rewrite lrun_done in R by auto. injection R as <- <- _. auto. }
    assert (SAME : l = t_ins s /\ n = 0 -> tI (set_ins s l (t_parsed s + n)) /\ D4 (set_ins s l (t_parsed s + n))).
    { intros [-> ->]. rewrite Z.add_0_r. replace (set_ins s (t_ins s) (t_parsed s)) with s by (destruct s; reflexivity).
      split; [split; [auto|rewrite S; auto]|right; auto]. }
    destruct L6 as [L6|[[L6 L7]|[[L6 L7]|(L6 & L7 & L8)]]]; [lia| |auto|auto].
    pose proof (ins_at_nonneg _ F C). unfold set_ins. split; [|right; t_cbn; lia]. split; t_cbn; [lia|]. rewrite S. split; t_cbn.
    { destruct (Z.ltb_spec (t_parsed s + n) 5); [lia|auto]. }
    split; [auto|]. split; [auto|]. rewrite L7. split; [constructor|]. split; [constructor|]. right. left. split; [lia|auto].
Qed.
Lemma ph6 : ph t_bad tI D5 D6 q6.
Proof.
  apply ph_byte.
  - intros s IS P W. unfold D5, D6 in *. destruct P as [P|[P1 P2]]; [auto|].
    apply waiting_false in W as [B|(_ & L & W)]; auto. right.
    destruct L as (L1 & L2 & L3 & L4 & L5 & L6). destruct (Z.ltb_spec (t_parsed s) 5); [lia|]. rewrite L1, ins_at_done in W by auto.
    pose proof (outs_at_nonneg _ L4 L5).
    split; [|auto]. destruct L6 as [L6|[[L6 L7]|[[L6 L7]|(L6 & L7 & L8)]]]; lia.
  - intros s IS [D|(D1' & D2' & D3')]; [apply not_waiting; auto|].
    match goal with |- waiting s ?p = _ => destruct (waiting s p) eqn:W end; auto.
    apply waiting_true in W as (_ & (L1 & L2 & L3 & _) & W); auto.
    destruct (Z.ltb_spec (t_parsed s) 5); [lia|]. rewrite L1, ins_at_done in W by auto. lia.
  - intros s IS B. left. auto.
  - intros s c IS P W BC. apply waiting_true in W as (S & L & W); auto. unfold D5, D6. rewrite W.
    destruct P as [P|[P1 P2]]; [unfold t_bad in P; congruence|].
    destruct L as (L1 & L2 & L3 & L4 & L5 & L6). destruct (Z.ltb_spec (t_parsed s) 5); [lia|]. rewrite L1, ins_at_done in * by auto.
    pose proof (ins_at_nonneg _ L2 L3). 
    unfold set_outs; cbn [t_parsed t_ins]. split; [|split; right; [split; [lia|auto]|split; [lia|split; [lia|auto]]]].
    split; t_cbn; [lia|]. rewrite S. split; t_cbn.
    { destruct (Z.ltb_spec (5 + 2 * sg + zat ti_parsed (t_ins s) + 1) 5); [lia|auto]. }
    split; [auto|]. split; [auto|].
    split; [apply fresh_ok, out1_fine|]. split; [apply fresh_clean; reflexivity|].
    right. right. left. rewrite zat_fresh by reflexivity. split; [auto|lia].
Qed.
Lemma ph7 : ph t_bad tI D6 (fun s => t_bad s \/ ldone to_status (t_outs s)) q7.
Proof.
  apply (ph_list txout_parse to_status out_fine to_parsed out_two out_step t_outs set_outs); try reflexivity.
  - intros []; reflexivity.
  - intros s [_ IS] NB. destruct (t_status s) eqn:S; [tauto| |exfalso; apply NB; exact S]. split; apply IS.
  - intros s IS P. split; [|left; reflexivity]. apply fail_I. destruct P as [P|P]; [apply bad_pos; auto|lia].
  - intros s l n r IS P NB C F Z Ln [a R]. destruct P as [P|P]; [tauto|].
    destruct IS as [I1 I2]. destruct (t_status s) eqn:S; [tauto| |exfalso; apply NB; exact S].
    pose proof I2 as (L1 & L2 & L3 & L4 & L5 & L6). 
    destruct (Z.ltb_spec (t_parsed s) 5); [lia|].
    assert (DN : ldone to_status (t_outs s) -> l = t_outs s /\ n = 0).
    { intros D. rewrite lrun_done in R by auto. injection R as <- <- _. auto. }
    assert (SAME : l = t_outs s /\ n = 0 -> tI (set_outs s l (t_parsed s + n)) /\ D6 (set_outs s l (t_parsed s + n))).
    { intros [-> ->]. rewrite Z.add_0_r. replace (set_outs s (t_outs s) (t_parsed s)) with s by (destruct s; reflexivity).
      split; [split; [auto|rewrite S; auto]|right; auto]. }
    destruct L6 as [L6|[[L6 L7]|[[L6 L7]|(L6 & L7 & L8)]]]; [lia| lia| |tauto].
    pose proof (outs_at_nonneg _ F C). pose proof (ins_at_nonneg _ L2 L3).
    unfold set_outs. split; [|right; t_cbn; split; [lia|split; [lia|auto]]]. split; t_cbn; [lia|]. rewrite S. split; t_cbn.
    { destruct (Z.ltb_spec (t_parsed s + n) 5); [lia|auto]. }
    split; [auto|]. split; [auto|]. split; [auto|]. split; [auto|]. right. right. left. split; [auto|lia].
Qed.
Definition FA : @phase tx := seq (seq (seq q2 q3) q4) q5.
Definition FB : @phase tx := seq q6 q7.
Definition F7 : @phase tx := seq (seq (seq (seq (seq (seq q1 q2) q3) q4) q5) q6) q7.
Lemma ph_F7 : ph t_bad tI (fun _ => True) D7 F7.
Proof.
  unfold F7.
  eapply ph_then; [eapply ph_then; [eapply ph_then; [eapply ph_then; [eapply ph_then; [eapply ph_then; [apply ph1|apply ph2|]
    |apply ph3|]|apply ph4|]|apply ph5|]|apply ph6|]|apply ph7|]; cbv beta.
  - intros s IS. unfold D1, D2. lia.
  - intros s IS. unfold D2. apply (conj (fun H => proj2 H)). intros H. split; auto. destruct H as [H|H]; [apply bad_pos; auto|lia].
  - intros s IS. unfold D3, D4. apply (conj (fun H => proj2 H)). intros [H|H]; [auto|]. split; right; lia.
  - intros s IS. unfold D4, D5. destruct SG; tauto.
  - intros s IS. unfold D5, D6. tauto.
  - intros s IS. unfold D6, D7. tauto.
Qed.

(** ** The code's own steps *)
Definition realA (s : tx) (st : list Z) : outcome (option (tx * list Z)) :=
  let! r2 := tx_parse_count (t_ins s) (t_segflag s) (t_parsed s) st in
  let '(ins2, sf, pos2, st2, bad2) := r2 in
  if bad2 then Ok None else
  let! r3 := parse_more txin_parse ti_status ins2 st2 in
  let '(ins3, n3, st3, bad3) := r3 in
  if (bad3 : bool) then Ok None else
  Ok (Some (mkTx (t_version s) ins3 (t_outs s) (t_lock s) sf INCOMPLETE (pos2 + n3), st3)).
Definition realB (s : tx) (st : list Z) : outcome (option (tx * list Z)) :=
  let! r4 := (match st with
              | c :: t' =>
                  if t_parsed s =? 5 + 2 * t_segflag s + zsum (map txin_length (t_ins s)) then
                    let! r := parse_all txout_parse (repeat txout_new (Z.to_nat c)) t' in
                    let '(l, n, s1) := r in Ok (l, t_parsed s + 1 + n, s1)
                  else Ok (t_outs s, t_parsed s, st)
              | [] => Ok (t_outs s, t_parsed s, st)
              end) in
  let '(outs4, pos4, st4) := r4 in
  let! r5 := parse_more txout_parse to_status outs4 st4 in
  let '(outs5, n5, st5, bad5) := r5 in
  if (bad5 : bool) then Ok None else
  Ok (Some (mkTx (t_version s) (t_ins s) outs5 (t_lock s) (t_segflag s) INCOMPLETE (pos4 + n5), st5)).
Definition tail (p0 : Z) (s : tx) (st : list Z) : outcome (tx * Z * list Z) :=
  let off2 := 5 + 2 * t_segflag s + zsum (map txin_length (t_ins s)) + 1 + zsum (map txout_length (t_outs s)) in
  let! r6 := (if (0 <? t_segflag s) && (t_parsed s =? off2) then
                let! r := parse_all txin_parse_wit (t_ins s) st in
                let '(l, n, s1) := r in Ok (l, t_parsed s + n, s1)
              else Ok (t_ins s, t_parsed s, st)) in
  let '(ins6, pos6, st6) := r6 in
  let! r7 := (if 0 <? t_segflag s then
                let! r := parse_more txin_parse_wit txin_wit_status ins6 st6 in
                let '(l, n, s1, bad) := r in Ok (l, pos6 + n, s1, bad)
              else Ok (ins6, pos6, st6, false)) in
  let '(ins7, pos7, st7, bad7) := r7 in
  if (bad7 : bool) then Ok (mkTx (t_version s) ins7 (t_outs s) (t_lock s) (t_segflag s) FAILED pos7, pos7 - p0, st7) else
  let off3 := off2 + (if 0 <? t_segflag s then zsum (map (fun i => witness_length (ti_wit i)) ins7) else 0) in
  let! r8 := read_loop_o (off3 + 4) pos7 (acc32 off3) (t_lock s) st7 in
  let '(lock, pos8, st8) := r8 in
  let stat := if (pos8 =? off3 + 4) && tx_completed (t_segflag s) ins7 (t_outs s) then DONE else INCOMPLETE in
  Ok (mkTx (t_version s) ins7 (t_outs s) lock (t_segflag s) stat pos8, pos8 - p0, st8).

Lemma body_fwd : forall s st s1 r1 s2 r2 s3 r3, q1 s st = Ok (s1, r1) -> realA s1 r1 = Ok (Some (s2, r2)) ->
  realB s2 r2 = Ok (Some (s3, r3)) -> tx_parse_body s st = tail (t_parsed s) s3 r3.
Proof.
  intros s st s1 r1 s2 r2 s3 r3 Q A B. unfold q1 in Q. unfold tx_parse_body.
  destruct (read_loop_o 4 (t_parsed s) (acc32 0) (t_version s) st) as [[[v p] r]|]; cbn [bind] in *; [|discriminate].
  injection Q as <- <-. unfold realA in A. t_cbn.
  destruct (tx_parse_count (t_ins s) (t_segflag s) p r) as [[[[[ins2 sf] pos2] st2] bad2]|]; cbn [bind] in *; [|discriminate].
  destruct bad2; [discriminate|].
  destruct (parse_more txin_parse ti_status ins2 st2) as [[[[ins3 n3] st3] bad3]|]; cbn [bind] in *; [|discriminate].
  destruct bad3; [discriminate|]. injection A as <- <-. unfold realB in B. t_cbn.
  match type of B with (let! r4 := ?X in _) = _ => destruct X as [[[outs4 pos4] st4]|] end; cbn [bind] in *; [|discriminate].
  destruct (parse_more txout_parse to_status outs4 st4) as [[[[outs5 n5] st5] bad5]|]; cbn [bind] in *; [|discriminate].
  destruct bad5; [discriminate|]. injection B as <- <-. unfold tail. t_cbn. reflexivity.
Qed.
Lemma body_bwd : forall s st t' n r, tx_parse_body s st = Ok (t', n, r) -> t_status t' <> FAILED ->
  exists s1 r1 s2 r2 s3 r3, q1 s st = Ok (s1, r1) /\ realA s1 r1 = Ok (Some (s2, r2)) /\ realB s2 r2 = Ok (Some (s3, r3)).
Proof.
  intros s st t' n r H NF. unfold tx_parse_body in H.
  destruct (read_loop_o 4 (t_parsed s) (acc32 0) (t_version s) st) as [[[v p] r1]|] eqn:E1; cbn [bind] in H; [|discriminate].
  destruct (tx_parse_count (t_ins s) (t_segflag s) p r1) as [[[[[ins2 sf] pos2] st2] bad2]|] eqn:E2; cbn [bind] in H; [|discriminate].
  destruct bad2; [injection H as <- _ _; cbn in NF; congruence|].
  destruct (parse_more txin_parse ti_status ins2 st2) as [[[[ins3 n3] st3] bad3]|] eqn:E3; cbn [bind] in H; [|discriminate].
  destruct bad3; [injection H as <- _ _; cbn in NF; congruence|].
  match type of H with (let! r4 := ?X in _) = _ => destruct X as [[[outs4 pos4] st4]|] eqn:E4 end; cbn [bind] in H; [|discriminate].
  destruct (parse_more txout_parse to_status outs4 st4) as [[[[outs5 n5] st5] bad5]|] eqn:E5; cbn [bind] in H; [|discriminate].
  destruct bad5; [injection H as <- _ _; cbn in NF; congruence|].
  exists (mkTx v (t_ins s) (t_outs s) (t_lock s) (t_segflag s) (t_status s) p), r1,
    (mkTx v ins3 (t_outs s) (t_lock s) sf INCOMPLETE (pos2 + n3)), st3,
    (mkTx v ins3 outs5 (t_lock s) sf INCOMPLETE (pos4 + n5)), st5.
  split; [unfold q1; rewrite E1; reflexivity|]. split.
  - unfold realA. t_cbn. rewrite E2. cbn [bind]. rewrite E3. reflexivity.
  - unfold realB. t_cbn. rewrite E4. cbn [bind]. rewrite E5. reflexivity.
Qed.

Definition agreeA (s : tx) (st : list Z) : Prop := forall s1 r,
  (FA s st = Ok (s1, r) /\ t_status s1 = INCOMPLETE) <-> (realA s st = Ok (Some (s1, r)) /\ (t_parsed s < 5 -> st <> [] -> t_segflag s1 = sg)).

Lemma FA_idle : forall s, tI s -> FA s [] = Ok (s, []).
Proof.
  intros s IS. unfold FA, seq. rewrite (ph_idle _ _ _ _ _ ph2) by auto. cbn [bind fst snd].
  rewrite (ph_idle _ _ _ _ _ ph3) by auto. cbn [bind fst snd]. rewrite (ph_idle _ _ _ _ _ ph4) by auto. cbn [bind fst snd].
  apply (ph_idle _ _ _ _ _ ph5); auto.
Qed.
Lemma sf_of : forall s, live s -> 5 <= t_parsed s -> t_segflag s = sg.
Proof. intros s (L & _) H. destruct (Z.ltb_spec (t_parsed s) 5); [lia|auto]. Qed.
Lemma inc_eta : forall s p, t_status s = INCOMPLETE -> p = t_parsed s -> mkTx (t_version s) (t_ins s) (t_outs s) (t_lock s) (t_segflag s) INCOMPLETE p = s.
Proof. intros [] p H ->. t_cbn. subst. reflexivity. Qed.
Lemma A_idle : forall s, tI s -> t_status s = INCOMPLETE -> agreeA s [].
Proof.
  intros s IS S s1 r. rewrite FA_idle by auto. unfold realA, tx_parse_count. cbn [bind].
  destruct IS as [_ L]. rewrite S in L. pose proof L as (_ & L2 & L3 & _).
  rewrite more_idle by auto. cbn [bind]. rewrite inc_eta by (auto; lia). split.
  - intros [H _]. injection H as <- <-. split; auto. congruence.
  - intros [H _]. injection H as <- <-. auto.
Qed.
(* reading the elements of an input list that is already there *)
Lemma A_list : forall s st, tI s -> t_status s = INCOMPLETE -> Hd <= t_parsed s -> bytes_ok st -> agreeA s st.
Proof.
  intros s st IS S H B s1 r. pose proof IS as [_ L]. rewrite S in L. pose proof L as (L1 & L2 & L3 & _).
  unfold FA, seq. rewrite (ph_done _ _ _ _ _ ph2) by (auto; unfold D2; lia). cbn [bind fst snd].
  rewrite (ph_done _ _ _ _ _ ph3) by (auto; right; lia). cbn [bind fst snd].
  rewrite (ph_done _ _ _ _ _ ph4) by (auto; right; lia). cbn [bind fst snd].
  unfold q5. rewrite lp_live by (unfold t_bad; congruence).
  assert (CNT : tx_parse_count (t_ins s) (t_segflag s) (t_parsed s) st = Ok (t_ins s, t_segflag s, t_parsed s, st, false)).
  { unfold tx_parse_count. rewrite sf_of by (auto; lia).
    assert (X4 : (t_parsed s =? 4) = false) by (apply Z.eqb_neq; lia).
    assert (X5 : (0 <? sg) && (t_parsed s =? 5) = false).
    { destruct SG as [->| ->]; auto. replace (t_parsed s =? 5) with false; auto. symmetry. apply Z.eqb_neq. lia. }
    assert (X6 : (0 <? sg) && (t_parsed s =? 6) = false).
    { destruct SG as [->| ->]; auto. replace (t_parsed s =? 6) with false; auto. symmetry. apply Z.eqb_neq. lia. }
    rewrite X4. destruct st as [|c st]; cbn [bind]; auto. rewrite X5. cbn [bind]. rewrite X6. reflexivity. }
  unfold realA. rewrite CNT. cbn [bind]. split.
  - intros [R S1]. destruct (lrun txin_parse ti_status (t_ins s) st) as [[[l n] r1]|] eqn:E; cbn [bind] in R; [|discriminate].
    destruct (lbadb ti_status l) eqn:BB; injection R as <- <-; [discriminate|].
    apply lbadb_clean in BB. rewrite (lrun_more txin_parse ti_status in_fine ti_parsed in_step _ _ _ _ _ L2 L3 B E BB). cbn [bind].
    unfold set_ins. rewrite S. split; auto. lia.
  - intros [R _]. destruct (parse_more txin_parse ti_status (t_ins s) st) as [[[[l n] r1] f]|] eqn:E; cbn [bind] in R; [|discriminate].
    destruct f; [discriminate|]. injection R as <- <-.
    destruct (more_lrun txin_parse ti_status in_fine ti_parsed in_step _ _ _ _ _ L2 L3 B E) as [X1 X2].
    rewrite X1. cbn [bind]. rewrite lclean_bad by auto. unfold set_ins. rewrite S. auto.
Qed.
(* from the count on *)
Lemma A_fresh : forall s c t s1 r, bytes_ok t -> t_status s = INCOMPLETE ->
  (q5 (set_ins s (repeat in1 (Z.to_nat c)) (t_parsed s + 1)) t = Ok (s1, r) /\ t_status s1 = INCOMPLETE) <->
  (let! x := parse_all txin_parse (repeat txin_new (Z.to_nat c)) t in
   let '(l, n, t1) := x in
   let! r3 := parse_more txin_parse ti_status l t1 in
   let '(ins3, n3, st3, bad3) := r3 in
   if (bad3 : bool) then Ok None else
   Ok (Some (mkTx (t_version s) ins3 (t_outs s) (t_lock s) (t_segflag s) INCOMPLETE (t_parsed s + 1 + n + n3), st3))) = Ok (Some (s1, r)).
Proof.
  intros s c t s1 r B S. unfold q5. rewrite lp_live by (unfold t_bad, set_ins; cbn [t_status]; congruence).
  cbn [t_ins set_ins t_parsed].
  pose proof (fun l k r => fresh_both txin_parse ti_status in_fine ti_parsed in_step txin_new in1 in1_nil in1_same eq_refl in1_fine (Z.to_nat c) t l r k B) as X.
  split.
  - intros [R S1]. destruct (lrun txin_parse ti_status (repeat in1 (Z.to_nat c)) t) as [[[l n] r1]|] eqn:E; cbn [bind] in R; [|discriminate].
    destruct (lbadb ti_status l) eqn:BB; injection R as <- <-; [discriminate|]. apply lbadb_clean in BB.
    destruct (proj1 (X l n r1) (conj eq_refl BB)) as (l1 & k1 & r2 & k2 & P & M & ->). rewrite P. cbn [bind]. rewrite M. cbn [bind].
    unfold set_ins. t_cbn. rewrite S. replace (t_parsed s + 1 + k1 + k2) with (t_parsed s + 1 + (k1 + k2)) by lia. reflexivity.
  - intros R. destruct (parse_all txin_parse (repeat txin_new (Z.to_nat c)) t) as [[[l1 k1] r1]|] eqn:P; cbn [bind] in R; [|discriminate].
    destruct (parse_more txin_parse ti_status l1 r1) as [[[[l k2] r2] f]|] eqn:M; cbn [bind] in R; [|discriminate].
    destruct f; [discriminate|]. injection R as <- <-.
    destruct (proj2 (X l (k1 + k2) r2)) as [E C]; [do 4 eexists; eauto|]. rewrite E. cbn [bind]. rewrite lclean_bad by auto.
    unfold set_ins. t_cbn. rewrite S. split; auto. replace (t_parsed s + 1 + k1 + k2) with (t_parsed s + 1 + (k1 + k2)) by lia. reflexivity.
Qed.
Lemma q4_at : forall s c t, t_status s = INCOMPLETE -> 0 < t_segflag s -> t_parsed s = 6 ->
  q4 s (c :: t) = Ok (set_ins s (repeat in1 (Z.to_nat c)) (t_parsed s + 1), t).
Proof.
  intros s c t S F W. unfold q4, byte_phase, waiting. rewrite S, W. apply Z.ltb_lt in F. rewrite F. reflexivity.
Qed.
Lemma realA_sf : forall s st s1 r, t_parsed s <> 4 -> realA s st = Ok (Some (s1, r)) -> t_segflag s1 = t_segflag s.
Proof.
  intros s st s1 r N R. unfold realA, tx_parse_count in R. apply Z.eqb_neq in N. rewrite N in R.
  destruct st as [|c t]; cbn [bind] in R.
  - destruct (parse_more txin_parse ti_status _ _) as [[[[? ?] ?] []]|]; cbn [bind] in R; try discriminate. injection R as <- <-. reflexivity.
  - repeat (match type of R with
      | context [if ?b then _ else _] => destruct b
      | context [match ?l with [] => _ | _ :: _ => _ end] => is_var l; destruct l
      | context [parse_all ?a ?b ?c] => destruct (parse_all a b c) as [[[? ?] ?]|]
      | context [parse_more ?a ?b ?c ?d] => destruct (parse_more a b c d) as [[[[? ?] ?] []]|]
      end; cbn [bind] in R; try discriminate); injection R as <- <-; reflexivity.
Qed.
Lemma realA_fresh6 : forall s c t, t_parsed s = 6 -> 0 < t_segflag s -> realA s (c :: t) =
  (let! x := parse_all txin_parse (repeat txin_new (Z.to_nat c)) t in
   let '(l, n, t1) := x in
   let! r3 := parse_more txin_parse ti_status l t1 in
   let '(ins3, n3, st3, bad3) := r3 in
   if (bad3 : bool) then Ok None else
   Ok (Some (mkTx (t_version s) ins3 (t_outs s) (t_lock s) (t_segflag s) INCOMPLETE (t_parsed s + 1 + n + n3), st3))).
Proof.
  intros s c t W F. unfold realA, tx_parse_count. rewrite W. apply Z.ltb_lt in F. change (6 =? 4) with false. cbv iota. cbn [bind]. rewrite F. change (6 =? 5) with false.
  cbn [bind andb]. cbv iota. change (6 =? 6) with true. cbn [bind andb]. cbv iota.
  destruct (parse_all txin_parse (repeat txin_new (Z.to_nat c)) t) as [[[l n] t1]|]; reflexivity.
Qed.
Lemma realA_fresh4 : forall s c t, t_parsed s = 4 -> t_segflag s = 0 -> c <> 0 -> realA s (c :: t) =
  (let! x := parse_all txin_parse (repeat txin_new (Z.to_nat c)) t in
   let '(l, n, t1) := x in
   let! r3 := parse_more txin_parse ti_status l t1 in
   let '(ins3, n3, st3, bad3) := r3 in
   if (bad3 : bool) then Ok None else
   Ok (Some (mkTx (t_version s) ins3 (t_outs s) (t_lock s) (t_segflag s) INCOMPLETE (t_parsed s + 1 + n + n3), st3))).
Proof.
  intros s c t W F C. unfold realA, tx_parse_count. rewrite W, F. change (4 =? 4) with true. apply Z.eqb_neq in C. rewrite C. cbv iota.
  destruct (parse_all txin_parse (repeat txin_new (Z.to_nat c)) t) as [[[l n] t1]|]; cbn [bind]; auto.
  change (0 <? 0) with false. cbn [andb]. destruct t1; reflexivity.
Qed.
Lemma A_six : forall s st, tI s -> t_status s = INCOMPLETE -> sg = 1 -> t_parsed s = 6 -> bytes_ok st -> agreeA s st.
Proof.
  intros s st IS S G W B. destruct st as [|c t]; [apply A_idle; auto|]. intros s1 r. inversion B; subst.
  pose proof IS as [_ L]. rewrite S in L. pose proof (sf_of _ L ltac:(lia)) as SF.
  unfold FA, seq. rewrite (ph_done _ _ _ _ _ ph2) by (auto; unfold D2; lia). cbn [bind fst snd].
  rewrite (ph_done _ _ _ _ _ ph3) by (auto; right; lia). cbn [bind fst snd].
  rewrite q4_at by (auto; lia). cbn [bind fst snd]. rewrite realA_fresh6 by (auto; lia).
  rewrite A_fresh by auto. split; [|tauto]. intros R. split; auto. lia.
Qed.
Lemma A_five : forall s st, tI s -> t_status s = INCOMPLETE -> sg = 1 -> t_parsed s = 5 -> bytes_ok st -> agreeA s st.
Proof.
  intros s st IS S G W B. destruct st as [|c t]; [apply A_idle; auto|]. inversion B; subst.
  pose proof IS as [_ L]. rewrite S in L. pose proof (sf_of _ L ltac:(lia)) as SF.
  assert (W3 : (0 <? t_segflag s) && waiting s 5 = true) by (unfold waiting; rewrite SF, S, W, G; reflexivity).
  destruct (Z.eq_dec c 1) as [->|N].
  - assert (I' : tI (set_ins s (t_ins s) 6)).
    { destruct (ph_end _ _ _ _ _ ph3 s (1 :: t) (set_ins s (t_ins s) 6) t) as (X & _); auto; [unfold D2; lia|].
      unfold q3, byte_phase. rewrite W3, W. reflexivity. }
    pose proof (A_six (set_ins s (t_ins s) 6) t I' S G eq_refl ltac:(auto)) as X.
    intros s1 r. specialize (X s1 r).
    assert (E1 : FA s (1 :: t) = FA (set_ins s (t_ins s) 6) t).
    { unfold FA, seq. rewrite (ph_done _ _ _ _ _ ph2 s) by (auto; unfold D2; lia). cbn [bind fst snd].
      rewrite (ph_done _ _ _ _ _ ph2 (set_ins s (t_ins s) 6)) by (auto; unfold D2; cbn; lia). cbn [bind fst snd].
      rewrite (ph_done _ _ _ _ _ ph3 (set_ins s (t_ins s) 6)) by (auto; right; cbn; lia). cbn [bind fst snd].
      unfold q3 at 1, byte_phase at 1. rewrite W3, W. reflexivity. }
    assert (E2 : realA s (1 :: t) = realA (set_ins s (t_ins s) 6) t).
    { unfold realA, tx_parse_count. cbn [t_ins set_ins t_segflag t_parsed t_version t_outs t_lock]. rewrite W, SF, G.
      destruct t; reflexivity. }
    rewrite E1, E2, X. split; intros [Y1 Y2]; (split; [exact Y1|]); [lia|cbn; lia].
  - intros s1 r. unfold FA, seq. rewrite (ph_done _ _ _ _ _ ph2 s) by (auto; unfold D2; lia). cbn [bind fst snd].
    unfold q3, byte_phase at 1. rewrite W3. apply Z.eqb_neq in N. rewrite N. cbn [bind fst snd].
    assert (FI : tI (t_fail s (t_parsed s + 1))) by (apply fail_I; lia).
    rewrite (ph_done _ _ _ _ _ ph4 _ _ FI) by (left; reflexivity). cbn [bind fst snd].
    rewrite (ph_done _ _ _ _ _ ph5 _ _ FI) by (left; reflexivity).
    unfold realA, tx_parse_count. rewrite W, SF, G. change (5 =? 4) with false. cbv iota. cbn [bind]. change (0 <? 1) with true. change (5 =? 5) with true.
    cbn [andb]. cbv iota. rewrite N. cbn [bind negb]. cbv iota. split; intros [R1 R2]; [|discriminate]. injection R1 as <- <-. discriminate R2.
Qed.
Lemma A_four : forall s st, tI s -> t_status s = INCOMPLETE -> t_parsed s = 4 -> bytes_ok st -> agreeA s st.
Proof.
  intros s st IS S W B. destruct st as [|c t]; [apply A_idle; auto|]. inversion B; subst.
  pose proof IS as [_ L]. rewrite S in L.
  assert (SF : t_segflag s = 0) by (destruct L as (L & _); rewrite W in L; exact L).
  assert (W4 : waiting s 4 = true) by (unfold waiting; rewrite S, W; reflexivity).
  assert (FI : tI (t_fail s (t_parsed s + 1))) by (apply fail_I; lia).
  assert (FF : forall _ : unit, (seq (seq (seq q2 q3) q4) q5) s (c :: t) = 
     let! x := q2 s (c :: t) in let! x := q3 (fst x) (snd x) in let! x := q4 (fst x) (snd x) in q5 (fst x) (snd x)).
  { intros _. unfold seq. destruct (q2 s (c :: t)) as [[? ?]|]; cbn [bind fst snd]; auto. destruct (q3 _ _) as [[? ?]|]; cbn [bind fst snd]; auto. }
  destruct (Z.eq_dec c 0) as [->|N].
  - destruct SG as [G|G].
    + (* a marker, but a transaction without one was expected *)
      intros s1 r. unfold FA. rewrite (FF tt). unfold q2 at 1, byte_phase at 1. rewrite W4, G. change (0 =? 0) with true. change (0 =? 1) with false.
      cbv iota. cbn [bind fst snd].
      rewrite (ph_done _ _ _ _ _ ph3 _ _ FI) by (left; reflexivity). cbn [bind fst snd].
      rewrite (ph_done _ _ _ _ _ ph4 _ _ FI) by (left; reflexivity). cbn [bind fst snd].
      rewrite (ph_done _ _ _ _ _ ph5 _ _ FI) by (left; reflexivity).
      split; intros [R1 R2]; [injection R1 as <- <-; discriminate R2|]. exfalso.
      specialize (R2 ltac:(lia) ltac:(discriminate)).
      assert (E2 : realA s (0 :: t) = realA (mkTx (t_version s) (t_ins s) (t_outs s) (t_lock s) 1 INCOMPLETE 5) t).
      { unfold realA, tx_parse_count. t_cbn. rewrite W. destruct t; reflexivity. }
      rewrite E2 in R1. apply realA_sf in R1; t_cbn; [lia|discriminate].
    + assert (E : q2 s (0 :: t) = Ok (mkTx (t_version s) (t_ins s) (t_outs s) (t_lock s) 1 INCOMPLETE 5, t)).
      { unfold q2, byte_phase. rewrite W4, G, W, S. reflexivity. }
      set (s' := mkTx (t_version s) (t_ins s) (t_outs s) (t_lock s) 1 INCOMPLETE 5) in *.
      assert (I' : tI s') by (destruct (ph_end _ _ _ _ _ ph2 s (0 :: t) s' t) as (X & _); auto; unfold D1; lia).
      pose proof (A_five s' t I' eq_refl G eq_refl ltac:(auto)) as X. intros s1 r. specialize (X s1 r).
      assert (E1 : FA s (0 :: t) = FA s' t).
      { unfold FA, seq. rewrite (ph_done _ _ _ _ _ ph2 s') by (auto; unfold D2; cbn; lia). rewrite E. reflexivity. }
      assert (E2 : realA s (0 :: t) = realA s' t).
      { unfold realA, tx_parse_count, s'. cbn [t_ins set_ins t_segflag t_parsed t_version t_outs t_lock]. rewrite W.
        destruct t; reflexivity. }
      rewrite E1, E2, X. split; intros [Y1 Y2]; (split; [exact Y1|]); [|cbn; lia].
      intros _ _. apply realA_sf in Y1; [cbn in Y1; lia|cbn; discriminate].
  - rewrite <- Z.eqb_neq in N. intros s1 r. unfold FA. rewrite (FF tt). unfold q2 at 1, byte_phase at 1. rewrite W4, N.
    destruct SG as [G|G]; rewrite G.
    + change (0 =? 1) with false. cbv iota. cbn [bind fst snd].
      set (s' := set_ins s (repeat in1 (Z.to_nat c)) (t_parsed s + 1)).
      assert (I' : tI s').
      { destruct (ph_end _ _ _ _ _ ph2 s (c :: t) s' t) as (X & _); auto; [unfold D1; lia|].
        unfold q2, byte_phase. rewrite W4, N, G. reflexivity. }
      rewrite (ph_done _ _ _ _ _ ph3 s' _ I') by (right; subst s'; cbn [t_parsed set_ins]; lia). cbn [bind fst snd].
      rewrite (ph_done _ _ _ _ _ ph4 s' _ I') by (right; subst s'; cbn [t_parsed set_ins]; lia). cbn [bind fst snd].
      subst s'. rewrite A_fresh by auto. rewrite realA_fresh4 by (auto; apply Z.eqb_neq; auto).
      split; [|tauto]. intros R. split; auto.
      destruct (parse_all txin_parse (repeat txin_new (Z.to_nat c)) t) as [[[l n] t1]|]; cbn [bind] in R; [|discriminate].
      destruct (parse_more txin_parse ti_status l t1) as [[[[l2 n2] t2] f2]|]; cbn [bind] in R; [|discriminate].
      destruct f2; [discriminate|]. injection R as <- <-. t_cbn. auto.
    + change (1 =? 1) with true. cbv iota. cbn [bind fst snd].
      rewrite (ph_done _ _ _ _ _ ph3 _ _ FI) by (left; reflexivity). cbn [bind fst snd].
      rewrite (ph_done _ _ _ _ _ ph4 _ _ FI) by (left; reflexivity). cbn [bind fst snd].
      rewrite (ph_done _ _ _ _ _ ph5 _ _ FI) by (left; reflexivity).
      split; intros [R1 R2]; [injection R1 as <- <-; discriminate R2|]. exfalso.
      rewrite realA_fresh4 in R1 by (auto; apply Z.eqb_neq; auto). inversion B; subst.
      destruct (parse_all txin_parse (repeat txin_new (Z.to_nat c)) t) as [[[l n] t1]|] eqn:P; cbn [bind] in R1; [|discriminate].
      destruct (parse_more txin_parse ti_status l t1) as [[[[l2 n2] t2] f2]|] eqn:M; cbn [bind] in R1; [|discriminate].
      destruct f2; [discriminate|]. injection R1 as <- <-. t_cbn. specialize (R2 ltac:(lia) ltac:(discriminate)). lia.
Qed.
(** Outputs. *)
Definition agreeB (s : tx) (st : list Z) : Prop := forall s1 r,
  (FB s st = Ok (s1, r) /\ t_status s1 = INCOMPLETE) <-> realB s st = Ok (Some (s1, r)).
Lemma FB_idle : forall s, tI s -> FB s [] = Ok (s, []).
Proof.
  intros s IS. unfold FB, seq. rewrite (ph_idle _ _ _ _ _ ph6) by auto. cbn [bind fst snd]. apply (ph_idle _ _ _ _ _ ph7); auto.
Qed.
Lemma B_idle : forall s, tI s -> t_status s = INCOMPLETE -> agreeB s [].
Proof.
  intros s IS S s1 r. rewrite FB_idle by auto. unfold realB. cbn [bind].
  destruct IS as [_ L]. rewrite S in L. pose proof L as (_ & _ & _ & L4 & L5 & _).
  rewrite more_idle by auto. cbn [bind]. rewrite inc_eta by (auto; lia). split.
  - intros [H _]. injection H as <- <-. auto.
  - intros H. injection H as <- <-. auto.
Qed.
Lemma B_list : forall s st, tI s -> t_status s = INCOMPLETE -> D5 s -> bytes_ok st -> agreeB s st.
Proof.
  intros s st IS S D B. destruct st as [|c t]; [apply B_idle; auto|]. inversion B; subst. intros s1 r.
  pose proof IS as [_ L]. rewrite S in L. pose proof L as (L1 & L2 & L3 & L4 & L5 & L6).
  destruct D as [D|[D1' D2']]; [unfold t_bad in D; congruence|].
  assert (SF : t_segflag s = sg) by (apply sf_of; auto; lia).
  assert (O : 5 + 2 * t_segflag s + zsum (map txin_length (t_ins s)) = Hd + ins_at (t_ins s)) by (rewrite SF, ins_at_done; auto).
  unfold realB. rewrite O. unfold FB, seq. destruct (Z.eqb_spec (t_parsed s) (Hd + ins_at (t_ins s))) as [E|N].
  - assert (Q : q6 s (c :: t) = Ok (set_outs s (repeat out1 (Z.to_nat c)) (t_parsed s + 1), t)).
    { unfold q6, byte_phase, waiting. rewrite O, S, <- E, Z.eqb_refl. reflexivity. }
    rewrite Q. cbn [bind fst snd]. unfold q7. rewrite lp_live by (unfold t_bad, set_outs; cbn [t_status]; congruence).
    cbn [t_outs set_outs t_parsed].
    pose proof (fun l k r => fresh_both txout_parse to_status out_fine to_parsed out_step txout_new out1 out1_nil out1_same eq_refl out1_fine (Z.to_nat c) t l r k ltac:(auto)) as X.
    split.
    + intros [R S1]. destruct (lrun txout_parse to_status (repeat out1 (Z.to_nat c)) t) as [[[l n] r1]|] eqn:EL; cbn [bind] in R; [|discriminate].
      destruct (lbadb to_status l) eqn:BB; injection R as <- <-; [discriminate|]. apply lbadb_clean in BB.
      destruct (proj1 (X l n r1) (conj eq_refl BB)) as (l1 & k1 & r2 & k2 & P & M & ->). rewrite P. cbn [bind]. rewrite M. cbn [bind].
      unfold set_outs. t_cbn. rewrite S. replace (t_parsed s + 1 + k1 + k2) with (t_parsed s + 1 + (k1 + k2)) by lia. reflexivity.
    + intros R. destruct (parse_all txout_parse (repeat txout_new (Z.to_nat c)) t) as [[[l1 k1] r1]|] eqn:P; cbn [bind] in R; [|discriminate].
      destruct (parse_more txout_parse to_status l1 r1) as [[[[l k2] r2] f]|] eqn:M; cbn [bind] in R; [|discriminate].
      destruct f; [discriminate|]. injection R as <- <-.
      destruct (proj2 (X l (k1 + k2) r2)) as [EL C]; [do 4 eexists; eauto|]. rewrite EL. cbn [bind]. rewrite lclean_bad by auto.
      unfold set_outs. t_cbn. rewrite S. split; auto. replace (t_parsed s + 1 + k1 + k2) with (t_parsed s + 1 + (k1 + k2)) by lia. reflexivity.
  - assert (D : D6 s).
    { right. pose proof (outs_at_nonneg _ L4 L5). split; [|auto]. destruct L6 as [L6|[[L6 L7]|[[L6 L7]|(L6 & L7 & L8)]]]; lia. }
    rewrite (ph_done _ _ _ _ _ ph6) by auto. cbn [bind fst snd]. unfold q7. rewrite lp_live by (unfold t_bad; congruence). split.
    + intros [R S1]. destruct (lrun txout_parse to_status (t_outs s) (c :: t)) as [[[l n] r1]|] eqn:E; cbn [bind] in R; [|discriminate].
      destruct (lbadb to_status l) eqn:BB; injection R as <- <-; [discriminate|].
      apply lbadb_clean in BB. rewrite (lrun_more txout_parse to_status out_fine to_parsed out_step _ _ _ _ _ L4 L5 B E BB). cbn [bind].
      unfold set_outs. rewrite S. auto.
    + intros R. destruct (parse_more txout_parse to_status (t_outs s) (c :: t)) as [[[[l n] r1] f]|] eqn:E; cbn [bind] in R; [|discriminate].
      destruct f; [discriminate|]. injection R as <- <-.
      destruct (more_lrun txout_parse to_status out_fine to_parsed out_step _ _ _ _ _ L4 L5 B E) as [X1 X2].
      rewrite X1. cbn [bind]. rewrite lclean_bad by auto. unfold set_outs. rewrite S. auto.
Qed.

Lemma F7_eq : forall s st, F7 s st = let! x := q1 s st in let! y := FA (fst x) (snd x) in FB (fst y) (snd y).
Proof.
  intros s st. unfold F7, FA, FB, seq.
  destruct (q1 s st) as [[? ?]|]; cbn [bind fst snd]; auto. destruct (q2 _ _) as [[? ?]|]; cbn [bind fst snd]; auto.
  destruct (q3 _ _) as [[? ?]|]; cbn [bind fst snd]; auto. destruct (q4 _ _) as [[? ?]|]; cbn [bind fst snd]; auto.
  destruct (q5 _ _) as [[? ?]|]; cbn [bind fst snd]; auto.
Qed.
Definition ends (P D : tx -> Prop) (f : @phase tx) : Prop := forall s a s1 r, tI s -> (a <> [] -> P s) -> bytes_ok a ->
  f s a = Ok (s1, r) -> tI s1 /\ bytes_ok r /\ (r <> [] -> P s1 /\ D s1).
Lemma ph_ends : forall P D f, ph t_bad tI P D f -> ends P D f.
Proof.
  intros P D f H s a s1 r IS PS B E. destruct a as [|c a].
  - rewrite (ph_idle _ _ _ _ _ H) in E by auto. injection E as <- <-. split; [auto|]. split; [auto|congruence].
  - destruct (ph_end _ _ _ _ _ H _ _ _ _ IS (PS ltac:(discriminate)) B E) as (X1 & X2 & X3 & X4). auto.
Qed.
Lemma ends_seq : forall P D D' f g, ends P D f -> ends D D' g -> forall s a s1 r, tI s -> (a <> [] -> P s) -> bytes_ok a ->
  seq f g s a = Ok (s1, r) -> tI s1 /\ bytes_ok r /\ (r <> [] -> D s1 /\ D' s1).
Proof.
  intros P D D' f g F G s a s1 r IS PS B E. unfold seq in E. destruct (f s a) as [[s2 r2]|] eqn:E2; cbn [bind fst snd] in E; [|discriminate].
  destruct (F _ _ _ _ IS PS B E2) as (X1 & X2 & X3). eapply G; eauto. intros N. apply X3; auto.
Qed.
Lemma FA_end : forall s a s1 r, tI s -> (a <> [] -> D1 s) -> bytes_ok a -> FA s a = Ok (s1, r) ->
  tI s1 /\ bytes_ok r /\ (r <> [] -> D5 s1).
Proof.
  intros s a s1 r IS PS B E. unfold FA in E.
  unfold seq in E. destruct (q2 s a) as [[s2 r2]|] eqn:E2; cbn [bind fst snd] in E; [|discriminate].
  destruct (ph_ends _ _ _ ph2 _ _ _ _ IS PS B E2) as (I2 & B2 & X2).
  destruct (q3 s2 r2) as [[s3 r3]|] eqn:E3; cbn [bind fst snd] in E; [|discriminate].
  destruct (ph_ends _ _ _ ph3 _ _ _ _ I2 (fun N => proj2 (X2 N)) B2 E3) as (I3 & B3 & X3).
  destruct (q4 s3 r3) as [[s4 r4]|] eqn:E4; cbn [bind fst snd] in E; [|discriminate].
  destruct (ph_ends _ _ _ ph4 _ _ _ _ I3 (fun N => proj2 (X3 N)) B3 E4) as (I4 & B4 & X4).
  destruct (ph_ends _ _ _ ph5 _ _ _ _ I4 (fun N => proj2 (X4 N)) B4 E) as (I5 & B5 & X5).
  split; [auto|]. split; [auto|]. intros N. destruct (X5 N) as [Y1 Y2]. unfold D4 in Y1. unfold D5. tauto.
Qed.
Lemma FA_bad : forall s a, tI s -> t_bad s -> FA s a = Ok (s, a).
Proof.
  intros s a IS BD. unfold FA, seq. rewrite (ph_done _ _ _ _ _ ph2) by (auto; eapply ph_bad; eauto using ph2). cbn [bind fst snd].
  rewrite (ph_done _ _ _ _ _ ph3) by (auto; left; auto). cbn [bind fst snd].
  rewrite (ph_done _ _ _ _ _ ph4) by (auto; left; auto). cbn [bind fst snd]. apply (ph_done _ _ _ _ _ ph5); auto.
Qed.
Lemma FB_bad : forall s a, tI s -> t_bad s -> FB s a = Ok (s, a).
Proof.
  intros s a IS BD. unfold FB, seq. rewrite (ph_done _ _ _ _ _ ph6) by (auto; left; auto). cbn [bind fst snd].
  apply (ph_done _ _ _ _ _ ph7); auto.
Qed.
Lemma A_any : forall s st, tI s -> t_status s = INCOMPLETE -> (st <> [] -> D1 s) -> bytes_ok st -> agreeA s st.
Proof.
  intros s st IS S D B. destruct st as [|c t]; [apply A_idle; auto|]. specialize (D ltac:(discriminate)). unfold D1 in D.
  destruct (Z.le_gt_cases Hd (t_parsed s)) as [H|H]; [apply A_list; auto|].
  destruct (Z.eq_dec (t_parsed s) 4); [apply A_four; auto|].
  destruct (Z.eq_dec (t_parsed s) 5); [apply A_five; auto; lia|]. apply A_six; auto; lia.
Qed.
Lemma q1_end : forall s st s1 r1, tI s -> t_status s = INCOMPLETE -> bytes_ok st -> q1 s st = Ok (s1, r1) ->
  tI s1 /\ t_status s1 = INCOMPLETE /\ bytes_ok r1 /\ (r1 <> [] -> D1 s1) /\ t_parsed s1 - t_parsed s = len st - len r1 /\ (t_parsed s <= t_parsed s1 <= Z.max 4 (t_parsed s)).
Proof.
  intros s st s1 r1 IS S B E. destruct (ph_end _ _ _ _ _ ph1 _ _ _ _ IS Logic.I B E) as (X1 & _ & X3 & X4).
  unfold q1 in E. destruct (read_loop_o 4 (t_parsed s) (acc32 0) (t_version s) st) as [[[v p] r]|] eqn:R; cbn [bind] in E; [|discriminate].
  injection E as <- <-. apply read_loop_o_pos in R as (Q1 & Q2 & Q3 & Q4 & _). split; [exact X1|]. split; [exact S|]. split; [auto|]. split; [auto|]. t_cbn. lia.
Qed.

(** From the phases to the code and back. *)
Lemma M_fwd : forall s st s3 r3, tI s -> t_status s = INCOMPLETE -> bytes_ok st -> F7 s st = Ok (s3, r3) -> t_status s3 = INCOMPLETE ->
  tx_parse_body s st = tail (t_parsed s) s3 r3.
Proof.
  intros s st s3 r3 IS S B E S3. rewrite F7_eq in E.
  destruct (q1 s st) as [[s1 r1]|] eqn:E1; cbn [bind fst snd] in E; [|discriminate].
  destruct (q1_end _ _ _ _ IS S B E1) as (I1 & S1 & B1 & X1 & _).
  destruct (FA s1 r1) as [[s2 r2]|] eqn:E2; cbn [bind fst snd] in E; [|discriminate].
  destruct (FA_end _ _ _ _ I1 X1 B1 E2) as (I2 & B2 & X2).
  assert (S2 : t_status s2 = INCOMPLETE).
  { destruct (t_status s2) eqn:T; auto.
    - destruct I2 as [_ I2]. rewrite T in I2. tauto.
    - rewrite FB_bad in E by auto. injection E as <- <-. congruence. }
  destruct (proj1 (A_any s1 r1 I1 S1 X1 B1 s2 r2) (conj E2 S2)) as [RA _].
  assert (RB : realB s2 r2 = Ok (Some (s3, r3))).
  { destruct r2 as [|c r2]; [apply B_idle; auto|]. apply B_list; auto. apply X2. discriminate. }
  eapply body_fwd; eauto.
Qed.
Lemma tail_sf : forall p0 s st t' n r, tail p0 s st = Ok (t', n, r) -> t_segflag t' = t_segflag s.
Proof.
  intros p0 s st t' n r H. unfold tail in H.
  match type of H with (let! r4 := ?X in _) = _ => destruct X as [[[? ?] ?]|] end; cbn [bind] in H; [|discriminate].
  match type of H with (let! r4 := ?X in _) = _ => destruct X as [[[[? ?] ?] b]|] end; cbn [bind] in H; [|discriminate].
  destruct b; [injection H as <- _ _; reflexivity|].
  match type of H with (let! r4 := ?X in _) = _ => destruct X as [[[? ?] ?]|] end; cbn [bind] in H; [|discriminate].
  injection H as <- _ _; reflexivity.
Qed.
Lemma M_bwd : forall s st t' n r, tI s -> t_status s = INCOMPLETE -> bytes_ok st -> tx_parse_body s st = Ok (t', n, r) ->
  t_status t' <> FAILED -> (t_parsed s < 5 -> 5 <= t_parsed s + len st -> t_segflag t' = sg) ->
  exists s3 r3, F7 s st = Ok (s3, r3) /\ t_status s3 = INCOMPLETE.
Proof.
  intros s st t' n r IS S B E NF K.
  destruct (body_bwd _ _ _ _ _ E NF) as (s1 & r1 & s2 & r2 & s3 & r3 & E1 & E2 & E3).
  rewrite (body_fwd _ _ _ _ _ _ _ _ E1 E2 E3) in E. apply tail_sf in E.
  assert (SF : t_segflag s3 = t_segflag s2).
  { unfold realB in E3.
    match type of E3 with (let! r4 := ?X in _) = _ => destruct X as [[[? ?] ?]|] end; cbn [bind] in E3; [|discriminate].
    destruct (parse_more txout_parse to_status _ _) as [[[[? ?] ?] []]|]; cbn [bind] in E3; try discriminate. injection E3 as <- _. reflexivity. }
  destruct (q1_end _ _ _ _ IS S B E1) as (I1 & S1 & B1 & X1 & P1 & P2).
  destruct (proj2 (A_any s1 r1 I1 S1 X1 B1 s2 r2)) as [FA2 S2].
  { split; auto. intros L N. specialize (X1 N). unfold D1 in X1. rewrite <- SF, <- E. apply K; [lia|].
    destruct r1; [congruence|]. rewrite len_cons in P1. pose proof (len_nonneg _ r1). lia. }
  destruct (FA_end _ _ _ _ I1 X1 B1 FA2) as (I2 & B2 & X2).
  assert (AB : agreeB s2 r2).
  { destruct r2 as [|c r2]; [apply B_idle; auto|]. apply B_list; auto. apply X2. discriminate. }
  destruct (proj2 (AB s3 r3) E3) as [FB3 S3]. exists s3, r3. split; auto.
  rewrite F7_eq, E1. cbn [bind fst snd]. rewrite FA2. cbn [bind fst snd]. exact FB3.
Qed.
End Kind.
