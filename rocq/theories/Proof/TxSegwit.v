(** Which cuts a transaction with witnesses survives. *)
From Coq Require Import Lia Znumtheory.
From Verif Require Import Base.Bytes Base.BytesFacts Model.Conversion Model.Stream Model.Script Model.Tx
  Spec.Codecs Spec.Wire Spec.Pieces Spec.Objects Proof.IntVarint Proof.StreamFacts Proof.Chunks Proof.ScriptFacts Proof.ScriptChunks Proof.WitnessFacts Proof.Phases Proof.TxIo
  Proof.ListPhase Proof.TxPhases Proof.TxChunks Proof.TxParse Proof.TxLimits.
Open Scope Z_scope.

(** ** Elements that are being read *)
Lemma in_wit : forall e a e1 n r, ti_status e = INCOMPLETE -> txin_parse e a = Ok (e1, n, r) -> ti_wit e1 = ti_wit e.
Proof.
  intros e a e1 n r S H. unfold txin_parse in H. rewrite S in H. unfold txin_parse_body in H.
  destruct (read_loop_o 32 _ _ _ a) as [[[? ?] ?]|]; cbn [bind] in H; [|discriminate].
  destruct (read_loop_o 36 _ _ _ _) as [[[? ?] ?]|]; cbn [bind] in H; [|discriminate].
  match type of H with (let! r3 := ?X in _) = _ => destruct X as [[[? ?] ?]|] end; cbn [bind] in H; [|discriminate].
  match type of H with (let! r3 := ?X in _) = _ => destruct X as [[[sc ?] ?]|] end; cbn [bind] in H; [|discriminate].
  destruct (sc_status sc); [| |injection H as <- _ _; reflexivity];
    (destruct (read_loop_o _ _ _ _ _) as [[[? ?] ?]|]; cbn [bind] in H; [|discriminate]; injection H as <- _ _; reflexivity).
Qed.
Lemma near_inside : forall s a s1 n1 r1, script_ok s -> sc_status s = INCOMPLETE -> a <> [] -> bytes_ok a ->
  script_parse s a = Ok (s1, n1, r1) -> sc_status s1 = DONE -> 0 <= sc_len s1 < 2^31 -> sc_parsed s <= script_length s + 3.
Proof.
  intros s a s1 n1 r1 OK S NA BA H D L. destruct (OK S) as [OK1 OK2].
  destruct (script_done_len _ _ _ _ _ OK NA BA H ltac:(congruence)) as [_ X]. specialize (X D).
  unfold script_parse in H. rewrite S in H. pose proof OK1 as (P & LL & I). rewrite body_more in H by lia.
  apply body2_end in H; auto. rewrite H in X. unfold script_length in *.
  assert (V : 1 <= lenVarInt (sc_len s1) <= 5).
  { unfold lenVarInt. destruct (sc_len s1 <? 253); [lia|]. destruct (Z.shiftr (sc_len s1) 16 =? 0); [lia|].
    rewrite (Z.shiftr_div_pow2 (sc_len s1) 32), Z.div_small by lia. change (0 =? 0) with true. cbv iota. lia. }
  assert (V2 : 1 <= lenVarInt (sc_len s)).
  { unfold lenVarInt. repeat match goal with |- context [if ?b then _ else _] => destruct b end; lia. }
  rewrite !u64_id in X by lia.
  destruct I as [(I1 & I2 & I3)|(I1 & I2 & I3)].
  - assert (Q : sc_parsed s <= 4) by lia. specialize (I3 Q). assert (2 ^ (8 * (sc_parsed s - 1)) <= 2^24) by (apply Z.pow_le_mono_r; lia).
    assert (V3 : lenVarInt (sc_len s) <= 9) by (unfold lenVarInt; repeat match goal with |- context [if ?b then _ else _] => destruct b end; lia).
    rewrite u64_id by lia. lia.
  - rewrite u64_id in * by lia. lia.
Qed.
Lemma in_back : forall e a e1 n r, in_fine e -> ti_status e = INCOMPLETE -> a <> [] -> bytes_ok a -> txin_parse e a = Ok (e1, n, r) ->
  ti_status e1 = DONE -> 0 <= sc_len (ti_script e1) < 2^31 -> ti_parsed e <= txin_length e.
Proof.
  intros e a e1 n r [F _] S NA BA H D L. destruct (F S S) as [(I1 & I2 & (J1 & J2 & J3) & K1 & K2) NF].
  unfold txin_length. pose proof (script_length_range (ti_script e)).
  destruct (sc_status (ti_script e)) eqn:T; [| |congruence].
  - destruct (Z.le_gt_cases (ti_parsed e) 36); [lia|]. specialize (K2 eq_refl). lia.
  - specialize (K1 eq_refl). specialize (J3 eq_refl). unfold txin_parse in H. rewrite S in H. unfold txin_parse_body in H.
    rewrite read_loop_o_stop in H by lia. cbn [bind] in H. rewrite read_loop_o_stop in H by lia. cbn [bind] in H.
    destruct a as [|c a]; [congruence|]. destruct (Z.eqb_spec (ti_parsed e) 36); [lia|]. cbn [bind] in H. rewrite T in H.
    destruct (script_parse (ti_script e) (c :: a)) as [[[sc n4] st4]|] eqn:E; cbn [bind] in H; [|discriminate].
    destruct (sc_status sc) eqn:SC.
    + destruct (read_loop_o _ _ _ _ st4) as [[[? ?] ?]|]; cbn [bind] in H; [|discriminate].
      assert (X : ti_script e1 = sc) by (injection H as <- _ _; reflexivity). rewrite X in L.
      pose proof (near_inside _ _ _ _ _ J1 T NA BA E SC L). lia.
    + destruct (read_loop_o _ _ _ _ st4) as [[[? ?] ?]|]; cbn [bind pstatus_eqb andb] in H; [|discriminate].
      injection H as <- _ _. discriminate D.
    + injection H as <- _ _. discriminate D.
Qed.
Lemma out_near : forall e a e1 n r, out_fine e -> to_status e = INCOMPLETE -> a <> [] -> bytes_ok a -> txout_parse e a = Ok (e1, n, r) ->
  to_status e1 = DONE -> 0 <= sc_len (to_script e1) < 2^31 -> to_parsed e <= txout_length e + 3.
Proof.
  intros e a e1 n r [F _] S NA BA H D L. specialize (F S). unfold txout_ok in F. rewrite S in F.
  destruct F as [(I1 & I2 & (J1 & J2 & J3) & K1 & K2 & K3) [NF K4]].
  unfold txout_length. pose proof (script_length_range (to_script e)).
  destruct (sc_status (to_script e)) eqn:T; [| |congruence].
  - specialize (K4 eq_refl). specialize (K3 eq_refl K4). unfold script_length. rewrite K3. cbn. lia.
  - specialize (K1 eq_refl). specialize (J3 eq_refl). unfold txout_parse in H. rewrite S in H. unfold txout_parse_body in H.
    rewrite read_loop_o_stop in H by lia. cbn [bind] in H.
    destruct a as [|c a]; [congruence|]. destruct (Z.eqb_spec (to_parsed e) 8); [lia|]. cbn [bind] in H. rewrite T in H.
    destruct (script_parse (to_script e) (c :: a)) as [[[sc n4] st4]|] eqn:E; cbn [bind] in H; [|discriminate].
    assert (X : to_script e1 = sc /\ (to_status e1 = DONE -> sc_status sc = DONE)).
    { injection H as <- _ _. cbn [to_script to_status]. split; auto. destruct (sc_status sc); auto; discriminate. }
    destruct X as [X1 X2]. rewrite X1 in L. specialize (X2 D).
    pose proof (near_inside _ _ _ _ _ J1 T NA BA E X2 L). lia.
Qed.
Lemma body2_pos : forall p0 arr l lenLen pos a s1 n1 r1, body2 p0 arr l lenLen pos a = Ok (s1, n1, r1) -> sc_status s1 = DONE ->
  sc_parsed s1 - pos = len a - len r1.
Proof.
  intros p0 arr l lenLen pos a s1 n1 r1 H D. unfold body2 in H.
  destruct (read_loop_o lenLen pos script_len_step l a) as [[[len2 pos2] st2]|] eqn:R1; cbn [bind] in H; [|discriminate].
  destruct ((pos2 =? lenLen) && (0 <? len2) && negb (alloc_ok len2)).
  { injection H as <- <- <-. discriminate. }
  destruct ((pos2 =? lenLen) && negb (lenVarInt len2 =? lenLen)).
  { injection H as <- <- <-. discriminate. }
  cbv zeta in H.
  destruct (read_loop_o (u64 (len2 + lenLen)) pos2 _ _ st2) as [[[arr3 pos3] st3]|] eqn:R3; cbn [bind] in H; [|discriminate].
  apply read_loop_o_pos in R1 as (R1 & _). apply read_loop_o_pos in R3 as (R3 & _).
  injection H as <- <- <-. cbn [sc_parsed]. lia.
Qed.
Lemma len_step_low : forall acc pos c v p, script_len_step acc pos c = Ok v -> 1 <= p <= pos -> v mod 2^(8 * (p - 1)) = acc mod 2^(8 * (p - 1)).
Proof.
  intros acc pos c v p H P. unfold script_len_step, shl_int in H.
  destruct (Z.leb_spec 0 (8 * (pos - 1))); [|discriminate]. destruct (Z.ltb_spec (8 * (pos - 1)) 32); [|discriminate].
  cbn [andb bind] in H. assert (X : v = u64 (acc + i32 (Z.shiftl c (8 * (pos - 1))))) by congruence. clear H. subst v.
  set (M := 2^(8 * (p - 1))). assert (MP : 0 < M) by (apply Z.pow_pos_nonneg; lia).
  assert (D : forall e, 8 * (p - 1) <= e -> (M | 2^e)).
  { intros e Q. exists (2^(e - 8 * (p - 1))). unfold M. rewrite <- Z.pow_add_r by lia. f_equal. lia. }
  unfold u64. rewrite <- (Zmod_div_mod M (2^64)) by (auto; try lia; apply D; lia).
  rewrite Z.shiftl_mul_pow2 by lia. destruct (D (8 * (pos - 1)) ltac:(lia)) as [y Y]. rewrite Y.
  assert (I : exists z, i32 (c * (y * M)) = z * M).
  { destruct (D 32 ltac:(lia)) as [w Wq]. assert (Q : exists k, i32 (c * (y * M)) = c * (y * M) - 2^32 * k).
    { pose proof (Z.div_mod (c * (y * M)) (2^32) ltac:(lia)) as Q. unfold i32. cbv zeta. destruct (_ <? 2^31); [exists (c * (y * M) / 2^32)|exists (c * (y * M) / 2^32 + 1)]; lia. }
    destruct Q as [k ->]. rewrite Wq. exists (c * y - w * k). ring. }
  destruct I as [z ->]. apply Z_mod_plus_full.
Qed.
Lemma len_loop_low : forall s lenLen pos acc acc1 pos1 r p, read_loop_o lenLen pos script_len_step acc s = Ok (acc1, pos1, r) -> 1 <= p <= pos ->
  acc1 mod 2^(8 * (p - 1)) = acc mod 2^(8 * (p - 1)).
Proof.
  induction s as [|c t IH]; intros lenLen pos acc acc1 pos1 r p H P; cbn [read_loop_o] in H.
  - injection H as <- _ _. reflexivity.
  - destruct (pos <? lenLen); [|injection H as <- _ _; reflexivity].
    destruct (script_len_step acc pos c) as [v|] eqn:E; [|discriminate]. cbn [bind] in H.
    rewrite (IH _ _ _ _ _ _ p H) by lia. eapply len_step_low; eauto.
Qed.
Lemma body2_low : forall p0 arr l lenLen pos a s1 n1 r1, body2 p0 arr l lenLen pos a = Ok (s1, n1, r1) -> sc_status s1 = DONE -> 1 <= pos ->
  sc_len s1 mod 2^(8 * (pos - 1)) = l mod 2^(8 * (pos - 1)).
Proof.
  intros p0 arr l lenLen pos a s1 n1 r1 H D P. unfold body2 in H.
  destruct (read_loop_o lenLen pos script_len_step l a) as [[[len2 pos2] st2]|] eqn:R1; cbn [bind] in H; [|discriminate].
  destruct ((pos2 =? lenLen) && (0 <? len2) && negb (alloc_ok len2)).
  { injection H as <- <- <-. discriminate. }
  destruct ((pos2 =? lenLen) && negb (lenVarInt len2 =? lenLen)).
  { injection H as <- <- <-. discriminate. }
  cbv zeta in H.
  destruct (read_loop_o (u64 (len2 + lenLen)) pos2 _ _ st2) as [[[arr3 pos3] st3]|] eqn:R3; cbn [bind] in H; [|discriminate].
  injection H as <- <- <-. cbn [sc_len]. eapply len_loop_low; eauto. lia.
Qed.
(** A script that is being read does not seem to be at its end, unless the cut is unlucky. *)
Lemma far_inside : forall s a s1 n1 r1, script_ok s -> sc_status s = INCOMPLETE -> a <> [] -> bytes_ok a ->
  script_parse s a = Ok (s1, n1, r1) -> sc_status s1 = DONE -> 0 <= sc_len s1 < 2^31 ->
  ~ unlucky (sc_len s1) (len a - len r1) -> sc_parsed s <> script_length s.
Proof.
  intros s a s1 n1 r1 OK S NA BA H D L C. destruct (OK S) as [OK1 OK2].
  destruct (script_done_len _ _ _ _ _ OK NA BA H ltac:(congruence)) as [_ X]. specialize (X D).
  unfold script_parse in H. rewrite S in H. pose proof OK1 as (P & LL & I). rewrite body_more in H by lia.
  pose proof (body2_pos _ _ _ _ _ _ _ _ _ H D) as N. pose proof (body2_low _ _ _ _ _ _ _ _ _ H D P) as LOW.
  apply body2_end in H; auto. rewrite H in X, N. unfold script_length in *.
  assert (V : 1 <= lenVarInt (sc_len s1) <= 5).
  { unfold lenVarInt. destruct (sc_len s1 <? 253); [lia|]. destruct (Z.shiftr (sc_len s1) 16 =? 0); [lia|].
    rewrite (Z.shiftr_div_pow2 (sc_len s1) 32), Z.div_small by lia. change (0 =? 0) with true. cbv iota. lia. }
  rewrite !u64_id in X by lia. rewrite u64_id in N by lia.
  destruct I as [(I1 & I2 & I3)|(I1 & I2 & I3)].
  - intros Y. apply C. unfold unlucky. rewrite <- lenVarInt_spec by lia.
    replace (lenVarInt (sc_len s1) + sc_len s1 - (len a - len r1)) with (sc_parsed s) by lia. split; [lia|]. rewrite LOW.
    specialize (I3 ltac:(lia)). rewrite Z.mod_small by lia.
    assert (2 ^ (8 * (sc_parsed s - 1)) <= 2^24) by (apply Z.pow_le_mono_r; lia).
    assert (V3 : 1 <= lenVarInt (sc_len s) <= 9) by (unfold lenVarInt; repeat match goal with |- context [if ?b then _ else _] => destruct b end; lia).
    rewrite u64_id in Y by lia. assert (V4 : lenVarInt (sc_len s) = 1) by (unfold lenVarInt; destruct (Z.ltb_spec (sc_len s) 253); [reflexivity|lia]). lia.
  - rewrite u64_id in * by lia. lia.
Qed.
Lemma out_far : forall e a e1 n r, out_fine e -> to_status e = INCOMPLETE -> a <> [] -> bytes_ok a -> txout_parse e a = Ok (e1, n, r) ->
  to_status e1 = DONE -> 0 <= sc_len (to_script e1) < 2^31 ->
  ~ unlucky (sc_len (to_script e1)) (len a - len r) -> to_parsed e <> txout_length e.
Proof.
  intros e a e1 n r [F _] S NA BA H D L C. specialize (F S). unfold txout_ok in F. rewrite S in F.
  destruct F as [(I1 & I2 & (J1 & J2 & J3) & K1 & K2 & K3) [NF K4]].
  unfold txout_length. pose proof (script_length_range (to_script e)).
  destruct (sc_status (to_script e)) eqn:T; [| |congruence].
  - specialize (K4 eq_refl). specialize (K3 eq_refl K4). unfold script_length. rewrite K3. cbn. lia.
  - specialize (K1 eq_refl). specialize (J3 eq_refl). unfold txout_parse in H. rewrite S in H. unfold txout_parse_body in H.
    rewrite read_loop_o_stop in H by lia. cbn [bind] in H.
    destruct a as [|c a]; [congruence|]. destruct (Z.eqb_spec (to_parsed e) 8); [lia|]. cbn [bind] in H. rewrite T in H.
    destruct (script_parse (to_script e) (c :: a)) as [[[sc n4] st4]|] eqn:E; cbn [bind] in H; [|discriminate].
    assert (X : to_script e1 = sc /\ st4 = r /\ (to_status e1 = DONE -> sc_status sc = DONE)).
    { injection H as <- _ <-. cbn [to_script to_status]. split; auto. split; auto. destruct (sc_status sc); auto; discriminate. }
    destruct X as (X1 & -> & X2). rewrite X1 in L, C. specialize (X2 D).
    pose proof (far_inside _ _ _ _ _ J1 T NA BA E X2 L C). lia.
Qed.

(** From a finished list back to what it was. *)
Section Back.
Context {E : Type}.
Variable parse : E -> list Z -> outcome (E * Z * list Z).
Variable status : E -> pstatus.
Variables ok short good : E -> Prop.
Hypothesis Hdone : forall e, ok e -> status e = DONE -> short e -> good e.
Hypothesis Hinc : forall e a e1 n r, ok e -> status e = INCOMPLETE -> a <> [] -> bytes_ok a -> parse e a = Ok (e1, n, r) ->
  status e1 = DONE -> short e1 -> good e /\ bytes_ok r.
Lemma lrun_back : forall l a l1 n r, Forall ok l -> bytes_ok a -> lrun parse status l a = Ok (l1, n, r) ->
  ldone status l1 -> Forall short l1 -> Forall good l.
Proof.
  induction l as [|e l IH]; intros a l1 n r F B R D SH; [constructor|]. inversion F; subst. cbn [lrun] in R.
  destruct (status e) eqn:S.
  - destruct (lrun parse status l a) as [[[t2 n2] r2]|] eqn:E2; cbn [bind] in R; [|discriminate]. injection R as <- <- <-.
    inversion D; inversion SH; subst. constructor; [auto|]. eapply IH; eauto.
  - destruct a as [|c a].
    { injection R as <- <- <-. inversion D; congruence. }
    destruct (parse e (c :: a)) as [[[e1 n1] st1]|] eqn:P; cbn [bind] in R; [|discriminate].
    destruct (status e1) eqn:S1; [|injection R as <- <- <-; inversion D; congruence..].
    destruct (lrun parse status l st1) as [[[t2 n2] r2]|] eqn:E2; cbn [bind] in R; [|discriminate]. injection R as <- <- <-.
    inversion D; inversion SH; subst.
    destruct (Hinc e (c :: a) e1 n1 st1) as [G B1]; auto; [discriminate|]. constructor; [auto|]. eapply IH; eauto.
  - injection R as <- <- <-. inversion D; congruence.
Qed.
End Back.
(** Elements are read one after the other. *)
Fixpoint ordered (l : list txout) : Prop :=
  match l with [] => True | e :: t => (to_status e = DONE /\ ordered t) \/ Forall (eq out1) t end.
Lemma fresh_ordered : forall l, Forall (eq out1) l -> ordered l.
Proof. intros [|e l] F; cbn [ordered]; auto. inversion F; auto. Qed.
Lemma lrun_ordered : forall l st l1 n r, ordered l -> lrun txout_parse to_status l st = Ok (l1, n, r) -> ordered l1.
Proof.
  induction l as [|e l IH]; intros st l1 n r O R; cbn [lrun] in R.
  { injection R as <- _ _. exact O. }
  assert (OT : ordered l) by (destruct O as [[_ O]|O]; [exact O|apply fresh_ordered; exact O]).
  destruct (to_status e) eqn:S.
  - destruct (lrun txout_parse to_status l st) as [[[t2 n2] r2]|] eqn:E2; cbn [bind] in R; [|discriminate]. injection R as <- _ _. cbn [ordered]. left. split; [exact S|]. eapply IH; eauto.
  - assert (FR : Forall (eq out1) l) by (destruct O as [[O _]|O]; [congruence|exact O]).
    destruct st as [|c st]; [injection R as <- _ _; exact O|].
    destruct (txout_parse e (c :: st)) as [[[e1 n1] st1]|]; cbn [bind] in R; [|discriminate].
    destruct (to_status e1) eqn:S1; [|injection R as <- _ _; cbn [ordered]; auto..].
    destruct (lrun txout_parse to_status l st1) as [[[t2 n2] r2]|] eqn:E2; cbn [bind] in R; [|discriminate]. injection R as <- _ _. cbn [ordered]. left. split; [exact S1|]. eapply IH; eauto.
  - injection R as <- _ _. exact O.
Qed.
Definition in_short (e : txin) : Prop := ti_wit e = witness_new /\ 0 <= sc_len (ti_script e) < 2^31.
Definition in_good (e : txin) : Prop := ti_wit e = witness_new /\ ti_parsed e <= txin_length e.
Definition out_mid (e : txout) : Prop := 0 <= sc_len (to_script e) < 2^31.
Definition out_good (e : txout) : Prop := to_status e <> DONE -> to_parsed e <> txout_length e.
Definition out_soso (e : txout) : Prop := to_parsed e <= txout_length e + 3 /\ (to_status e = DONE -> to_parsed e = txout_length e).
Lemma ins_back : forall l a l1 n r, Forall in_fine l -> bytes_ok a -> lrun txin_parse ti_status l a = Ok (l1, n, r) ->
  ldone ti_status l1 -> Forall in_short l1 -> Forall in_good l.
Proof.
  apply lrun_back.
  - intros e [_ F] S [W _]. split; auto. rewrite F by auto. lia.
  - intros e a e1 n r F S NA BA P S1 [W L]. split; [|eapply in_step; eauto]. split; [rewrite <- W; symmetry; eapply in_wit; eauto|].
    eapply in_back; eauto.
Qed.
Lemma outs_back : forall l a l1 n r, Forall out_fine l -> bytes_ok a -> lrun txout_parse to_status l a = Ok (l1, n, r) ->
  ldone to_status l1 -> Forall out_mid l1 -> Forall out_soso l.
Proof.
  apply lrun_back.
  - intros e [_ F] S _. split; [|auto]. rewrite F by auto. lia.
  - intros e a e1 n r F S NA BA P S1 L. split; [|eapply out_step; eauto].
    pose proof (out_near _ _ _ _ _ F S NA BA P S1 L). split; [lia|congruence].
Qed.

(** ** What the phases do to the elements *)
Notation I1 := (tI 1).
Lemma SG1 : 1 = 0 \/ 1 = 1.
Proof. auto. Qed.
Definition kept {E} (parse : E -> list Z -> outcome (E * Z * list Z)) (status : E -> pstatus) (l l1 : list E) : Prop :=
  l = [] \/ exists a n r, bytes_ok a /\ lrun parse status l a = Ok (l1, n, r).
Notation kept_in := (kept txin_parse ti_status).
Notation kept_out := (kept txout_parse to_status).
Lemma byte_cases : forall trig upd s st s1 r, byte_phase trig upd s st = Ok (s1, r) ->
  (s1 = s /\ r = st) \/ (trig s = true /\ exists c, s1 = upd s c).
Proof.
  intros trig upd s st s1 r H. unfold byte_phase in H. destruct st as [|c st]; [left; injection H as <- <-; auto|].
  destruct (trig s) eqn:T; injection H as <- <-; eauto.
Qed.
Lemma early_ins : forall s, I1 s -> t_status s = INCOMPLETE -> t_parsed s < 7 -> t_ins s = [].
Proof.
  intros s [_ IS] S H. rewrite S in IS. destruct IS as (L1 & L2 & L3 & L4 & L5 & L6).
  pose proof (ins_at_nonneg _ L2 L3). pose proof (outs_at_nonneg _ L4 L5).
  destruct L6 as [L6|[[L6 L7]|[[L6 L7]|(L6 & L7 & L8 & L9)]]]; [tauto|lia|lia|lia].
Qed.
Lemma q5_kept : forall s st s1 r1, bytes_ok st -> q5 s st = Ok (s1, r1) -> t_status s1 = INCOMPLETE ->
  kept_in (t_ins s) (t_ins s1) /\ t_outs s1 = t_outs s /\ t_status s = INCOMPLETE.
Proof.
  intros s st s1 r1 B E S1. unfold q5 in E.
  assert (NB4 : t_status s <> FAILED).
  { intros X. unfold list_phase in E. rewrite X in E. injection E as <- _. congruence. }
  rewrite lp_live in E by (unfold t_bad; exact NB4).
  destruct (lrun txin_parse ti_status (t_ins s) st) as [[[l n] r]|] eqn:R; cbn [bind] in E; [|discriminate].
  destruct (lbadb ti_status l) eqn:LB; injection E as <- <-; [discriminate|]. unfold set_ins in *. t_cbn.
  split; [right; eauto|]. auto.
Qed.
Lemma FA_kept : forall s st s1 r1, I1 s -> D1 s -> bytes_ok st -> FA 1 s st = Ok (s1, r1) -> t_status s1 = INCOMPLETE ->
  kept_in (t_ins s) (t_ins s1) /\ t_outs s1 = t_outs s.
Proof.
  intros s st s1 r1 IS P B E S1. unfold FA, seq in E.
  destruct (q2 1 s st) as [[s2 r2]|] eqn:E2; cbn [bind fst snd] in E; [|discriminate].
  destruct (ph_end _ _ _ _ _ (ph2 1 SG1) _ _ _ _ IS P B E2) as (J2 & _ & B2 & X2).
  destruct (q3 s2 r2) as [[s3 r3]|] eqn:E3; cbn [bind fst snd] in E; [|discriminate].
  destruct (q4 s3 r3) as [[s4 r4]|] eqn:E4; cbn [bind fst snd] in E; [|discriminate].
  assert (J3 : I1 s3 /\ bytes_ok r3).
  { destruct r2 as [|c r2].
    - unfold q3, byte_phase in E3. injection E3 as <- <-. auto.
    - destruct (ph_end _ _ _ _ _ (ph3 1 SG1) _ _ _ _ J2 (X2 ltac:(discriminate)) B2 E3) as (J3 & _ & B3 & _). auto. }
  destruct J3 as [J3 B3].
  assert (B4 : bytes_ok r4).
  { unfold q4, byte_phase in E4. destruct r3 as [|c r3]; [injection E4 as _ <-; auto|]. inversion B3; subst.
    destruct (_ && _); injection E4 as _ <-; auto. }
  destruct (q5_kept _ _ _ _ B4 E S1) as (K & O & S4).
  assert (C2 : t_status s2 = INCOMPLETE -> t_ins s2 = t_ins s /\ t_outs s2 = t_outs s).
  { apply byte_cases in E2 as [[-> _]|(_ & c & ->)]; auto. destruct (c =? 0); cbn; auto; discriminate. }
  assert (C3 : t_status s3 = INCOMPLETE -> t_ins s3 = t_ins s /\ t_outs s3 = t_outs s).
  { apply byte_cases in E3 as [[-> _]|(_ & c & ->)]; auto. unfold set_ins. destruct (c =? 1); cbn; auto. discriminate. }
  apply byte_cases in E4 as [[-> _]|(T & c & ->)].
  - destruct (C3 S4) as [C4 C5]. rewrite C4, C5 in *. auto.
  - apply andb_true_iff in T as [_ T]. apply (waiting_true 1) in T as (S3 & _ & T); auto.
    destruct (C3 S3) as [C4 C5]. unfold set_ins in O. t_cbn. rewrite C5 in O. split; [|exact O].
    left. rewrite <- C4. apply early_ins; auto. lia.
Qed.
Lemma FB_kept : forall s st s1 r1, I1 s -> bytes_ok st -> FB s st = Ok (s1, r1) -> t_status s1 = INCOMPLETE ->
  kept_out (t_outs s) (t_outs s1) /\ t_ins s1 = t_ins s /\ t_status s = INCOMPLETE.
Proof.
  intros s st s1 r1 IS B E S1. unfold FB, seq in E.
  destruct (q6 s st) as [[s2 r2]|] eqn:E2; cbn [bind fst snd] in E; [|discriminate].
  assert (B2 : bytes_ok r2).
  { unfold q6, byte_phase in E2. destruct st as [|c st]; [injection E2 as _ <-; auto|]. inversion B; subst.
    destruct (waiting _ _); injection E2 as _ <-; auto. }
  unfold q7 in E.
  assert (NB4 : t_status s2 <> FAILED).
  { intros X. unfold list_phase in E. rewrite X in E. injection E as <- _. congruence. }
  rewrite lp_live in E by (unfold t_bad; exact NB4).
  destruct (lrun txout_parse to_status (t_outs s2) r2) as [[[l n] r]|] eqn:R; cbn [bind] in E; [|discriminate].
  destruct (lbadb to_status l) eqn:LB; injection E as <- <-; [discriminate|]. unfold set_outs in *. t_cbn.
  apply byte_cases in E2 as [[-> ->]|(T & c & ->)].
  - split; [right; eauto|]. auto.
  - t_cbn. apply (waiting_true 1) in T as (S & L & T); auto. split; [|auto]. left.
    destruct L as (L1 & L2 & L3 & L4 & L5 & L6). 
    destruct L6 as [L6|[[L6 L7]|[[L6 L7]|(L6 & _)]]]; [tauto|auto| |lia].
    pose proof (outs_at_nonneg _ L4 L5). pose proof (ins_at_nonneg _ L2 L3). destruct (Z.ltb_spec (t_parsed s) 5); [lia|].
    rewrite L1, ins_at_done in T by auto. lia.
Qed.
Lemma F7_kept : forall s st s3 r3, I1 s -> t_status s = INCOMPLETE -> bytes_ok st -> F7 1 s st = Ok (s3, r3) -> t_status s3 = INCOMPLETE ->
  kept_in (t_ins s) (t_ins s3) /\ kept_out (t_outs s) (t_outs s3).
Proof.
  intros s st s3 r3 IS S B E S3. rewrite F7_eq in E.
  destruct (q1 s st) as [[s1 r1]|] eqn:E1; cbn [bind fst snd] in E; [|discriminate].
  destruct (ph_end _ _ _ _ _ (ph1 1 SG1) _ _ _ _ IS Logic.I B E1) as (J1 & _ & B1 & X1).
  assert (Q : t_ins s1 = t_ins s /\ t_outs s1 = t_outs s).
  { unfold q1 in E1. destruct (read_loop_o _ _ _ _ st) as [[[? ?] ?]|]; cbn [bind] in E1; [|discriminate]. injection E1 as <- _. auto. }
  destruct Q as [Q1 Q2].
  destruct (FA 1 s1 r1) as [[s2 r2]|] eqn:E2; cbn [bind fst snd] in E; [|discriminate].
  destruct r1 as [|c r1].
  { assert (s2 = s1 /\ r2 = []) as [-> ->].
    { unfold FA, seq, q2, q3, q4, byte_phase in E2. cbn [bind fst snd] in E2.
      rewrite (ph_idle _ _ _ _ _ (ph5 1 SG1) s1 J1) in E2. injection E2 as <- <-. auto. }
    destruct (FB_kept _ _ _ _ J1 B1 E S3) as (K1 & K2 & K3). rewrite Q2 in K1. rewrite K2, Q1. split; auto.
    right. exists [], 0, []. split; [constructor|]. apply lrun_idle. }
  specialize (X1 ltac:(discriminate)).
  assert (J2 : I1 s2 /\ bytes_ok r2).
  { destruct (FA_end 1 SG1 _ _ _ _ J1 (fun _ => X1) B1 E2) as (Y1 & Y2 & _). auto. }
  destruct J2 as [J2 B2].
  destruct (FB_kept _ _ _ _ J2 B2 E S3) as (K1 & K2 & K3).
  destruct (FA_kept _ _ _ _ J1 X1 B1 E2 K3) as [K4 K5].
  rewrite K5, Q2 in K1. rewrite Q1 in K4. rewrite K2. auto.
Qed.
Lemma wits_new : forall l, Forall (fun e => ti_wit e = witness_new) l ->
  parse_more txin_parse_wit txin_wit_status l [] = Ok (l, 0, [], false) /\ 0 <= zsum (map (fun i => witness_length (ti_wit i)) l).
Proof.
  induction 1 as [|e l W F [IH1 IH2]]; [split; [reflexivity|cbn; lia]|]. split.
  - cbn [parse_more]. assert (X : txin_wit_status e = DONE) by (unfold txin_wit_status; rewrite W; reflexivity).
    cbn [bind]. rewrite X. cbn [pstatus_eqb]. rewrite IH1. reflexivity.
  - cbn [map zsum fold_right]. fold (zsum (map (fun i => witness_length (ti_wit i)) l)). rewrite W.
    change (witness_length witness_new) with 1. lia.
Qed.
Lemma sum_fresh : forall l, Forall (eq out1) l -> outs_at l = 0 /\ zsum (map txout_length l) = 9 * len l.
Proof.
  induction 1 as [|e l <- F [IH1 IH2]]; [split; reflexivity|]. rewrite zat_cons, IH1. cbn [map zsum fold_right]. fold (zsum (map txout_length l)). rewrite IH2, len_cons.
  change (txout_length out1) with 9. split; [reflexivity|lia].
Qed.
Lemma sum_good : forall l, Forall out_soso l -> ordered l -> (forall l0 e, l = l0 ++ [e] -> out_good e) ->
  outs_at l <= zsum (map txout_length l) + 3 /\ (~ ldone to_status l -> outs_at l <> zsum (map txout_length l)).
Proof.
  induction l as [|e l IH]; intros F O G; [split; [cbn; lia|]; intros N; exfalso; apply N; constructor|]. inversion F as [|? ? [G1 G2] F1]; subst.
  rewrite zat_cons. cbn [map zsum fold_right]. fold (zsum (map txout_length l)).
  destruct (to_status e) eqn:S.
  1:{ rewrite (G2 eq_refl). assert (OT : ordered l) by (destruct O as [[_ O]|O]; [exact O|apply fresh_ordered; exact O]).
    destruct (IH F1 OT (fun l0 x Q => G (e :: l0) x ltac:(rewrite Q; reflexivity))) as [IH1 IH2]. split; [lia|].
    intros N. assert (ND : ~ ldone to_status l) by (intros X; apply N; constructor; auto). specialize (IH2 ND). lia. }
  all: assert (FR : Forall (eq out1) l) by (destruct O as [[O _]|O]; [congruence|exact O]); destruct (sum_fresh l FR) as [-> ->]; destruct l as [|x l];
    [pose proof (G [] e eq_refl ltac:(congruence)); rewrite len_nil; split; lia|rewrite len_cons; pose proof (len_nonneg _ l); split; lia].
Qed.
Lemma sum_good_in : forall l, Forall in_good l -> ins_at l <= zsum (map txin_length l).
Proof.
  induction 1 as [|e l [_ G1] F IH]; [reflexivity|]. rewrite zat_cons. cbn [map zsum fold_right]. fold (zsum (map txin_length l)). lia.
Qed.
Lemma still_inside : forall s q s3 p0, I1 s -> t_status s = INCOMPLETE -> q <> [] -> bytes_ok q -> F7 1 s q = Ok (s3, []) ->
  t_status s3 = INCOMPLETE -> ldone ti_status (t_ins s3) -> ldone to_status (t_outs s3) ->
  Forall in_short (t_ins s3) -> Forall out_mid (t_outs s3) -> (forall l e, t_outs s = l ++ [e] -> out_good e) -> ordered (t_outs s) ->
  tail p0 s [] = Ok (s, t_parsed s - p0, []).
Proof.
  intros s q s3 p0 IS S NQ B E S3 DI DO HI HO GL OR.
  destruct (F7_kept _ _ _ _ IS S B E S3) as [KI KO].
  pose proof IS as [P0 L]. rewrite S in L. destruct L as (L1 & L2 & L3 & L4 & L5 & L6).
  assert (GI : Forall in_good (t_ins s)).
  { destruct KI as [->|(a & n & r & BA & R)]; [constructor|]. eapply ins_back; eauto. }
  assert (GO : Forall out_soso (t_outs s)).
  { destruct KO as [->|(a & n & r & BA & R)]; [constructor|]. eapply outs_back; eauto. }
  assert (ND : ~ D7 1 s).
  { intros D. rewrite (ph_done _ _ _ _ _ (ph_F7 1 SG1) _ _ IS D) in E. injection E as _ X. congruence. }
  set (off2 := 5 + 2 * t_segflag s + zsum (map txin_length (t_ins s)) + 1 + zsum (map txout_length (t_outs s))).
  assert (LT : t_parsed s <> off2 /\ t_parsed s <= off2 + 3).
  { unfold off2. pose proof (sum_good_in _ GI). destruct (sum_good _ GO OR GL) as [G1 G2].
    pose proof (ins_at_nonneg _ L2 L3). pose proof (outs_at_nonneg _ L4 L5).
    destruct (Z.ltb_spec (t_parsed s) 5).
    { rewrite L1. destruct L6 as [(L6 & -> & ->)|[[L6 _]|[[_ L7]|(L6 & _)]]]; [cbn; lia|lia|lia|lia]. }
    rewrite L1. destruct L6 as [(L6 & -> & ->)|[[L6 ->]|[[L6 L7]|(L6 & _)]]]; [cbn; lia|cbn [map zsum fold_right]; lia| |lia].
    rewrite ins_at_done by auto. assert (~ ldone to_status (t_outs s)).
    { intros X. apply ND. right. repeat split; auto; lia. }
    specialize (G2 ltac:(assumption)). lia. }
  destruct LT as [NE LE]. unfold tail. fold off2.
  destruct (Z.eqb_spec (t_parsed s) off2); [lia|]. rewrite andb_false_r. cbn [bind].
  destruct (wits_new (t_ins s)) as [W1 W2]; [eapply Forall_impl; [|exact GI]; intros e [G _]; exact G|].
  destruct (0 <? t_segflag s).
  - rewrite W1. cbn [bind read_loop_o]. rewrite Z.add_0_r.
    destruct (Z.eqb_spec (t_parsed s) (off2 + zsum (map (fun i => witness_length (ti_wit i)) (t_ins s)) + 4)); [lia|].
    cbn [andb]. destruct s; t_cbn; subst; reflexivity.
  - cbn [bind read_loop_o]. rewrite Z.add_0_r. destruct (Z.eqb_spec (t_parsed s) (off2 + 4)); [lia|].
    cbn [andb]. destruct s; t_cbn; subst; reflexivity.
Qed.

(** ** Reading up to the witnesses *)
Definition s0 : tx := mkTx 0 [] [] 0 0 INCOMPLETE 0.
Definition s3v (v : s_tx) : tx :=
  mkTx (s_version v) (map pin0 (s_ins v)) (map parsed_out (s_outs v)) 0 1 INCOMPLETE (len (before_witness v)).
Lemma s0_I1 : I1 s0.
Proof.
  split; [cbn; lia|]. cbn [t_status s0]. split; [reflexivity|]. t_cbn. cbn [s0 t_ins t_outs t_parsed].
  repeat split; try constructor; try lia. split; [cbn; lia|auto].
Qed.
Lemma ldone_map : forall {A E} (f : A -> E) (status : E -> pstatus) l, (forall x, status (f x) = DONE) -> ldone status (map f l).
Proof. intros. apply Forall_map'. auto. Qed.
Lemma F7_wire : forall v x, tx_ok v -> bytes_ok (before_witness v) -> bytes_ok x -> 1 <= len (s_ins v) < 253 -> len (s_outs v) < 253 ->
  F7 1 s0 (before_witness v ++ x) = Ok (s3v v, x).
Proof.
  intros v x (V & L & FI & FO) BB BX NI NO. pose proof (len_nonneg _ (s_outs v)) as NO0.
  assert (RI : Z.to_nat (len (s_ins v)) = length (s_ins v)) by (unfold len; lia).
  assert (RO : Z.to_nat (len (s_outs v)) = length (s_outs v)) by (unfold len; lia).
  unfold s3v. unfold before_witness, wire_list in *. rewrite !len_app, !len_le_bytes. rewrite !compact_one in * by lia.
  rewrite <- !app_assoc. cbn [app] in *.
  apply bytes_ok_app in BB as [_ BB]. inversion BB as [|? ? _ BB1]; subst. inversion BB1 as [|? ? _ BB2]; subst. inversion BB2 as [|? ? _ BB3]; subst.
  apply bytes_ok_app in BB3 as [BI BB3]. inversion BB3 as [|? ? _ BO]; subst. clear BB BB1 BB2.
  unfold F7, seq. unfold q1. cbn [s0 t_parsed t_version].
  change (read_loop_o 4 0 (acc32 0) 0) with (read_loop_o (0 + 4) 0 (acc32 0) 0). rewrite (acc32_le4 0) by auto. change (0 + 4) with 4.
  cbn [bind fst snd]. unfold q2 at 1, byte_phase, waiting. t_cbn. cbn [s0 t_ins t_outs t_lock t_segflag t_status].
  change (pstatus_eqb INCOMPLETE INCOMPLETE && (4 =? 4)) with true. change (0 =? 0) with true. change (1 =? 1) with true. cbv iota. cbn [bind fst snd].
  unfold q3, byte_phase, waiting. t_cbn. change (4 + 1) with 5.
  change ((0 <? 1) && (pstatus_eqb INCOMPLETE INCOMPLETE && (5 =? 5))) with true. change (1 =? 1) with true. cbv iota. unfold set_ins at 1. t_cbn. cbn [bind fst snd].
  unfold q4, byte_phase, waiting. t_cbn. change (5 + 1) with 6.
  change ((0 <? 1) && (pstatus_eqb INCOMPLETE INCOMPLETE && (6 =? 6))) with true. cbv iota. unfold set_ins at 1. t_cbn. cbn [bind fst snd].
  unfold q5. rewrite lp_live by (unfold t_bad; t_cbn; discriminate). t_cbn. rewrite RI.
  assert (BR : bytes_ok (flat_map wire_in (s_ins v) ++ len (s_outs v) :: flat_map wire_out (s_outs v) ++ x)).
  { apply bytes_ok_app. split; auto. constructor; [split; lia|]. apply bytes_ok_app; auto. }
  rewrite (fresh_lrun txin_parse ti_status in_fine ti_parsed in_step txin_new in1 in1_nil in1_same eq_refl in1_fine _ _ (map pin0 (s_ins v)) (len (flat_map wire_in (s_ins v)))
    (len (s_outs v) :: flat_map wire_out (s_outs v) ++ x) BR); [|apply parse_ins; auto|apply ldone_clean, ldone_map; reflexivity].
  cbn [bind]. rewrite lclean_bad by (apply ldone_clean, ldone_map; reflexivity). unfold set_ins. t_cbn. cbn [fst snd].
  unfold q6, byte_phase, waiting. t_cbn.
  rewrite (sum_ins (fun _ => witness_new) (s_ins v) FI : zsum (map txin_length (map pin0 (s_ins v))) = _).
  replace (pstatus_eqb INCOMPLETE INCOMPLETE && (6 + 1 + len (flat_map wire_in (s_ins v)) =? 5 + 2 * 1 + len (flat_map wire_in (s_ins v)))) with true
    by (symmetry; apply andb_true_iff; split; [reflexivity|apply Z.eqb_eq; lia]).
  unfold set_outs at 1. t_cbn. cbn [bind fst snd].
  unfold q7. rewrite lp_live by (unfold t_bad; t_cbn; discriminate). t_cbn. rewrite RO.
  assert (BR2 : bytes_ok (flat_map wire_out (s_outs v) ++ x)) by (apply bytes_ok_app; auto).
  rewrite (fresh_lrun txout_parse to_status out_fine to_parsed out_step txout_new out1 out1_nil out1_same eq_refl out1_fine _ _ (map parsed_out (s_outs v)) (len (flat_map wire_out (s_outs v))) x BR2);
    [|apply parse_outs; auto|apply ldone_clean, ldone_map; reflexivity].
  cbn [bind]. rewrite lclean_bad by (apply ldone_clean, ldone_map; reflexivity). unfold set_outs. t_cbn.
  rewrite !len_cons, !len_nil. 
  match goal with |- Ok (mkTx _ _ _ _ _ _ ?a, _) = Ok (mkTx _ _ _ _ _ _ ?b, _) => replace a with b by lia end. reflexivity.
Qed.

Lemma F7_ordered : forall s p s1 r, ordered (t_outs s) -> F7 1 s p = Ok (s1, r) -> ordered (t_outs s1).
Proof.
  intros s p s1 r O H. unfold F7, seq in H.
  destruct (q1 s p) as [[a1 r1]|] eqn:E1; cbn [bind fst snd] in H; [|discriminate].
  destruct (q2 1 a1 r1) as [[a2 r2]|] eqn:E2; cbn [bind fst snd] in H; [|discriminate].
  destruct (q3 a2 r2) as [[a3 r3]|] eqn:E3; cbn [bind fst snd] in H; [|discriminate].
  destruct (q4 a3 r3) as [[a4 r4]|] eqn:E4; cbn [bind fst snd] in H; [|discriminate].
  destruct (q5 a4 r4) as [[a5 r5]|] eqn:E5; cbn [bind fst snd] in H; [|discriminate].
  destruct (q6 a5 r5) as [[a6 r6]|] eqn:E6; cbn [bind fst snd] in H; [|discriminate].
  assert (O1 : t_outs a1 = t_outs s).
  { unfold q1 in E1. destruct (read_loop_o _ _ _ _ p) as [[[? ?] ?]|]; cbn [bind] in E1; [|discriminate]. injection E1 as <- _. reflexivity. }
  assert (O2 : t_outs a2 = t_outs a1).
  { apply byte_cases in E2 as [[-> _]|(_ & c & ->)]; auto. destruct (c =? 0); reflexivity. }
  assert (O3 : t_outs a3 = t_outs a2).
  { apply byte_cases in E3 as [[-> _]|(_ & c & ->)]; auto. destruct (c =? 1); reflexivity. }
  assert (O4 : t_outs a4 = t_outs a3).
  { apply byte_cases in E4 as [[-> _]|(_ & c & ->)]; auto. }
  assert (O5 : t_outs a5 = t_outs a4).
  { unfold q5 in E5. destruct (pstatus_eqb (t_status a4) FAILED) eqn:Q.
    - unfold list_phase in E5. destruct (t_status a4) eqn:Q2; try discriminate. injection E5 as <- _. reflexivity.
    - rewrite lp_live in E5 by (unfold t_bad; destruct (t_status a4); discriminate || congruence).
      destruct (lrun txin_parse ti_status (t_ins a4) r4) as [[[l n] r']|]; cbn [bind] in E5; [|discriminate].
      destruct (lbadb ti_status l); injection E5 as <- _; reflexivity. }
  assert (O6 : ordered (t_outs a6)).
  { rewrite <- O1, <- O2, <- O3, <- O4, <- O5 in O. apply byte_cases in E6 as [[-> _]|(_ & c & ->)]; [exact O|].
    unfold set_outs. t_cbn. apply fresh_ordered. generalize (Z.to_nat c). induction n; cbn [repeat]; constructor; auto. }
  unfold q7 in H. destruct (pstatus_eqb (t_status a6) FAILED) eqn:Q.
  - unfold list_phase in H. destruct (t_status a6) eqn:Q2; try discriminate. injection H as <- _. exact O6.
  - rewrite lp_live in H by (unfold t_bad; destruct (t_status a6); discriminate || congruence).
    destruct (lrun txout_parse to_status (t_outs a6) r6) as [[[l n] r']|] eqn:R; cbn [bind] in H; [|discriminate].
    pose proof (lrun_ordered _ _ _ _ _ O6 R). destruct (lbadb to_status l); injection H as <- _; auto.
Qed.

(** The last output, when the bytes [q] up to the witnesses are still to come. *)
Lemma ordered_last : forall l e, ordered (l ++ [e]) -> ldone to_status l \/ e = out1.
Proof.
  induction l as [|x l IH]; intros e O; [left; constructor|]. cbn [app ordered] in O. destruct O as [[S O]|O].
  - destruct (IH _ O) as [D|D]; auto. left. constructor; auto.
  - right. apply Forall_app in O as [_ O]. inversion O; auto.
Qed.
Lemma lrun_front : forall l e q, ldone to_status l -> lrun txout_parse to_status (l ++ [e]) q =
  let! x := lrun txout_parse to_status [e] q in Ok (l ++ fst (fst x), snd (fst x), snd x).
Proof.
  induction 1 as [|x l S D IH]; cbn [app].
  - destruct (lrun txout_parse to_status [e] q) as [[[? ?] ?]|]; reflexivity.
  - cbn [lrun] in *. rewrite S, IH. destruct (to_status e); cbn [bind fst snd app]; auto. destruct q; cbn [bind fst snd app]; auto.
    destruct (txout_parse e (z :: q)) as [[[e1 n1] st1]|]; cbn [bind]; auto. destruct (to_status e1); reflexivity.
Qed.
Lemma in_outs : forall s q s3 r, I1 s -> t_status s = INCOMPLETE -> t_outs s <> [] -> F7 1 s q = Ok (s3, r) -> t_status s3 = INCOMPLETE ->
  exists n, lrun txout_parse to_status (t_outs s) q = Ok (t_outs s3, n, r).
Proof.
  intros s q s3 r IS S NO H S3. pose proof IS as [P0 L]. rewrite S in L. destruct L as (L1 & L2 & L3 & L4 & L5 & L6).
  assert (L7 : ldone ti_status (t_ins s) /\ t_parsed s = 7 + ins_at (t_ins s) + 1 + outs_at (t_outs s)).
  { destruct L6 as [(L6 & _ & X)|[[L6 X]|[[L6 L7]|(L6 & _)]]]; [congruence|congruence|split; [auto|lia]|lia]. }
  destruct L7 as [LD LP]. pose proof (ins_at_nonneg _ L2 L3). pose proof (outs_at_nonneg _ L4 L5).
  unfold F7, seq in H.
  rewrite (ph_done _ _ _ _ _ (ph1 1 SG1) s q IS) in H by (unfold D1; lia). cbn [bind fst snd] in H.
  rewrite (ph_done _ _ _ _ _ (ph2 1 SG1) s q IS) in H by (unfold D2; lia). cbn [bind fst snd] in H.
  rewrite (ph_done _ _ _ _ _ (ph3 1 SG1) s q IS) in H by (unfold D3; lia). cbn [bind fst snd] in H.
  rewrite (ph_done _ _ _ _ _ (ph4 1 SG1) s q IS) in H by (unfold D4; lia). cbn [bind fst snd] in H.
  rewrite (ph_done _ _ _ _ _ (ph5 1 SG1) s q IS) in H by auto. cbn [bind fst snd] in H.
  rewrite (ph_done _ _ _ _ _ (ph6 1 SG1) s q IS) in H by (right; repeat split; auto; lia). cbn [bind fst snd] in H.
  unfold q7 in H. rewrite lp_live in H by (unfold t_bad; congruence).
  destruct (lrun txout_parse to_status (t_outs s) q) as [[[l n] r']|]; cbn [bind] in H; [|discriminate].
  destruct (lbadb to_status l); injection H as <- <-; [discriminate|]. exists n. reflexivity.
Qed.
Lemma last_good : forall s q s3 l e l3 e3, I1 s -> t_status s = INCOMPLETE -> ordered (t_outs s) -> bytes_ok q -> q <> [] -> F7 1 s q = Ok (s3, []) -> t_status s3 = INCOMPLETE ->
  ldone to_status (t_outs s3) -> t_outs s = l ++ [e] -> t_outs s3 = l3 ++ [e3] -> out_mid e3 ->
  ~ unlucky (sc_len (to_script e3)) (len q) -> out_good e.
Proof.
  intros s q s3 l e l3 e3 IS S O B NQ H S3 D E E3 M C. pose proof IS as [P0 L]. rewrite S in L. destruct L as (_ & _ & _ & L4 & _).
  rewrite E in O, L4. apply Forall_app in L4 as [_ FE]. inversion FE as [|? ? F1 _]; subst. clear FE.
  destruct (ordered_last _ _ O) as [DL| ->]; [|intros _; cbn; lia].
  destruct (in_outs s q s3 [] IS S) as [n R]; auto; [rewrite E; destruct l; discriminate|].
  rewrite E, lrun_front in R by auto. cbn [lrun] in R. destruct (to_status e) eqn:SE.
  - intros X. congruence.
  - destruct q as [|c q]; [congruence|]. destruct (txout_parse e (c :: q)) as [[[e1 n1] st1]|] eqn:P; cbn [bind] in R; [|discriminate].
    assert (X : t_outs s3 = l ++ [e1] /\ (to_status e1 = DONE -> st1 = [])).
    { destruct (to_status e1); cbn [bind fst snd] in R; injection R as <- _ <-; split; auto; discriminate. }
    destruct X as [X1 X2]. rewrite X1 in E3, D. apply app_inj_tail in E3 as [_ <-].
    assert (SD : to_status e1 = DONE) by (apply Forall_app in D as [_ D]; inversion D; auto). rewrite (X2 SD) in P.
    assert (G : to_parsed e <> txout_length e).
    { refine (out_far e (c :: q) e1 n1 [] F1 SE _ B P SD M _); [discriminate|]. rewrite len_nil, Z.sub_0_r. exact C. }
    intros _. exact G.
  - cbn [bind fst snd] in R. injection R as R _. rewrite <- R in D. apply Forall_app in D as [_ D]. inversion D. congruence.
Qed.

(** ** Feeding *)
Lemma wits_pos : forall l, Forall wit_ok l -> 1 <= len l -> 1 <= len (flat_map (fun i => wire_witness (si_wit i)) l).
Proof.
  intros [|i l] F N; [rewrite len_nil in N; lia|]. cbn [flat_map]. unfold wire_witness at 1. inversion F as [|? ? (W1 & _) _]; subst.
  pose proof (len_nonneg _ (si_wit i)). rewrite compact_one by lia. rewrite !len_app, len_cons, len_nil.
  pose proof (len_nonneg _ (flat_map wire_bytes (si_wit i))). pose proof (len_nonneg _ (flat_map (fun i => wire_witness (si_wit i)) l)). lia.
Qed.
Section Feed.
Variable v : s_tx.
Hypothesis K : tx_ok v.
Hypothesis W : Forall wit_ok (s_ins v).
Hypothesis NI : 1 <= len (s_ins v) < 253.
Hypothesis NO : len (s_outs v) < 253.
Hypothesis BB : bytes_ok (before_witness v).
Notation bw := (before_witness v).
(* a cut with the bytes [q] of [bw] to come *)
Definition cut_ok (q : list Z) : Prop := forall l o, s_outs v = l ++ [o] -> ~ unlucky (len (so_script o)) (len q).
Lemma s3_short : Forall in_short (t_ins (s3v v)) /\ Forall out_mid (t_outs (s3v v)).
Proof.
  unfold s3v. t_cbn. split; apply Forall_map.
  - destruct K as (_ & _ & FI & _). eapply Forall_impl; [|exact FI]. intros i (_ & _ & _ & _ & _ & X & _). split; [reflexivity|].
    change (sc_len (ti_script (pin0 i))) with (len (si_sig i)). pose proof (len_nonneg _ (si_sig i)). lia.
  - destruct K as (_ & _ & _ & FO). eapply Forall_impl; [|exact FO]. intros i (_ & _ & X). unfold out_mid.
    change (sc_len (to_script (parsed_out i))) with (len (so_script i)). pose proof (len_nonneg _ (so_script i)). lia.
Qed.
(* the state after the bytes [p] *)
Definition after (p : list Z) (s : tx) : Prop := I1 s /\ t_status s = INCOMPLETE /\ F7 1 s0 p = Ok (s, []).
Lemma after_nil : after [] s0.
Proof. split; [apply s0_I1|]. split; [reflexivity|]. apply (ph_idle _ _ _ _ _ (ph_F7 1 SG1)), s0_I1. Qed.
Lemma after_app : forall p s q s1 r, after p s -> bytes_ok p -> bytes_ok q -> q <> [] -> F7 1 s0 (p ++ q) = Ok (s1, r) ->
  t_status s1 = INCOMPLETE -> F7 1 s q = Ok (s1, r).
Proof.
  intros p s q s1 r (A1 & A2 & A3) BP BQ NQ E S1.
  pose proof (ph_app _ _ _ _ _ (ph_F7 1 SG1) s0 p q s0_I1 Logic.I BP BQ NQ) as X. rewrite E in X.
  destruct X as [X|(? & ? & ? & ? & X & _ & Y & _)]; [congruence| |].
  - rewrite A3 in X. unfold go_on in X. cbn [bind fst snd] in X. auto.
  - injection X as <- _. unfold t_bad in Y. congruence.
Qed.
Lemma at_prefix : forall p q, bw = p ++ q -> q <> [] -> cut_ok q -> exists s, after p s /\ forall p0, tail p0 s [] = Ok (s, t_parsed s - p0, []).
Proof.
  intros p q E NQ CQ. pose proof BB as B. rewrite E in B. apply bytes_ok_app in B as [BP BQ].
  pose proof (F7_wire v [] K BB (Forall_nil _) NI NO) as F. rewrite app_nil_r, E in F.
  pose proof (ph_app _ _ _ _ _ (ph_F7 1 SG1) s0 p q s0_I1 Logic.I BP BQ NQ) as X. rewrite F in X.
  destruct X as [X|(? & ? & ? & ? & X & _ & Y & _)]; [congruence| |].
  2:{ injection X as <- _. discriminate Y. }
  destruct (F7 1 s0 p) as [[s r]|] eqn:FP; [|discriminate]. unfold go_on in X. cbn [bind fst snd] in X.
  destruct r as [|c r]; [|injection X as _ X; discriminate].
  destruct (ph_end _ _ _ _ _ (ph_F7 1 SG1) _ _ _ _ s0_I1 Logic.I BP FP) as (A1 & _).
  assert (S : t_status s = INCOMPLETE).
  { destruct (t_status s) eqn:S; auto.
    - destruct A1 as [_ A1]. rewrite S in A1. tauto.
    - rewrite (ph_done _ _ _ _ _ (ph_F7 1 SG1) _ _ A1 (or_introl S)) in X. injection X as X _. rewrite <- X in S. discriminate S. }
  exists s. split; [split; [auto|split; auto]|]. intros p0. destruct s3_short as (H1 & H2).
  assert (OR : ordered (t_outs s)) by (eapply F7_ordered; [|exact FP]; exact Logic.I).
  eapply still_inside; eauto; try (unfold s3v; t_cbn; apply ldone_map; reflexivity). intros l e Q.
  destruct (exists_last (l := s_outs v)) as (os & o & EO).
  { intros Z. pose proof A1 as [_ L]. rewrite S in L. destruct L as (_ & _ & _ & L4 & L5 & _).
    destruct (F7_kept _ _ _ _ A1 S BQ (eq_sym X) eq_refl) as [_ [Y|(a & n & r & BA & R)]]; [rewrite Y in Q; destruct l; discriminate|].
    destruct (lrun_end txout_parse to_status out_fine to_parsed out_step _ _ _ _ _ L4 L5 BA R) as (_ & Y & _). unfold s3v in Y. cbn [t_outs] in Y. rewrite Z, Q in Y. destruct l; discriminate. }
  eapply (last_good s q (s3v v) l e (map parsed_out os) (parsed_out o)); eauto.
  - unfold s3v. t_cbn. apply ldone_map. reflexivity.
  - unfold s3v. t_cbn. rewrite EO, map_app. reflexivity.
  - eapply Forall_forall in H2; [exact H2|]. unfold s3v. t_cbn. rewrite EO, map_app. apply in_or_app. right. left. reflexivity.
  - exact (CQ _ _ EO).
Qed.
Lemma one_before : forall p s c q, after p s -> bw = p ++ c ++ q -> c <> [] -> q <> [] -> cut_ok q ->
  exists s1, after (p ++ c) s1 /\ tx_parse_body s c = Ok (s1, t_parsed s1 - t_parsed s, []).
Proof.
  intros p s c q A E NC NQ CQ. pose proof BB as B. rewrite E in B. apply bytes_ok_app in B as [BP B]. apply bytes_ok_app in B as [BC BQ].
  destruct (at_prefix (p ++ c) q) as (s1 & A1 & T); [rewrite <- app_assoc; auto|auto|auto|]. exists s1. split; auto.
  pose proof A1 as (X1 & X2 & X3). pose proof (after_app _ _ _ _ _ A BP BC NC X3 X2) as F. destruct A as (A2 & A3 & _).
  rewrite (M_fwd 1 SG1 _ _ _ _ A2 A3 BC F X2). apply T.
Qed.

(* the lock time *)
Notation wits := (flat_map (fun i => wire_witness (si_wit i)) (s_ins v)).
Notation off3 := (len bw + len wits).
Notation rd := (read_loop_o (off3 + 4) off3 (acc32 off3) 0).
Definition lockst (x : list Z) (a : Z) : tx :=
  mkTx (s_version v) (map pin1 (s_ins v)) (map parsed_out (s_outs v)) a 1 (if len x =? 4 then DONE else INCOMPLETE) (off3 + len x).
Lemma bw_len : len bw = 5 + 2 * 1 + zsum (map txin_length (map pin0 (s_ins v))) + 1 + zsum (map txout_length (map parsed_out (s_outs v))).
Proof.
  destruct K as (_ & _ & FI & FO). pose proof (len_nonneg _ (s_outs v)).
  rewrite (sum_ins (fun _ => witness_new) (s_ins v) FI : zsum (map txin_length (map pin0 (s_ins v))) = _), sum_outs by auto.
  unfold before_witness, wire_list. rewrite !compact_one by lia. rewrite !len_app, !len_le_bytes, !len_cons, !len_nil. lia.
Qed.
Lemma rd_prefix : forall x y, le_bytes 4 (s_lock v) = x ++ y -> exists a, rd x = Ok (a, off3 + len x, []).
Proof.
  intros x y E. destruct K as (_ & L & _). pose proof (acc32_le4 off3 (s_lock v) [] L) as R. rewrite app_nil_r, E in R.
  rewrite read_loop_o_app in R. destruct (rd x) as [[[a p] r]|] eqn:X; cbn [bind] in R; [|discriminate].
  assert (N : len x + len y = 4) by (rewrite <- len_app, <- E; apply len_le_bytes).
  apply read_loop_o_pos in X as (Q1 & Q2 & Q3 & Q4 & Q5). pose proof (len_nonneg _ y).
  assert (RN : r = []).
  { destruct Q4 as [Q4|Q4]; auto. pose proof (len_nonneg _ r). destruct r as [|c r]; auto. exfalso. rewrite len_cons in *. pose proof (len_nonneg _ r). lia. }
  subst r. exists a. rewrite len_nil in Q1. f_equal. f_equal. f_equal. lia.
Qed.
Lemma done_wits : forall l st, parse_more txin_parse_wit txin_wit_status (map pin1 l) st = Ok (map pin1 l, 0, st, false).
Proof. intros. apply parse_more_done. apply Forall_map'; reflexivity. Qed.
Lemma completed1 : tx_completed 1 (map pin1 (s_ins v)) (map parsed_out (s_outs v)) = true.
Proof. unfold tx_completed. apply andb_true_intro. split; apply forallb_forall; intros x I; apply in_map_iff in I as (y & <- & _); reflexivity. Qed.
Lemma one_mid : forall p s q x y, after p s -> bw = p ++ q -> q <> [] -> bytes_ok wits -> le_bytes 4 (s_lock v) = x ++ y -> bytes_ok x ->
  exists a, rd x = Ok (a, off3 + len x, []) /\
    tx_parse_body s (q ++ wits ++ x) = Ok (lockst x a, off3 + len x - t_parsed s, []).
Proof.
  intros p s q x y A E NQ BW EL BX. destruct (rd_prefix _ _ EL) as [a R]. exists a. split; auto.
  pose proof BB as B. rewrite E in B. apply bytes_ok_app in B as [BP BQ].
  assert (BY : bytes_ok (wits ++ x)) by (apply bytes_ok_app; auto).
  assert (BZ : bytes_ok (q ++ wits ++ x)) by (apply bytes_ok_app; auto).
  pose proof (F7_wire v (wits ++ x) K BB BY NI NO) as F. rewrite E, <- app_assoc in F.
  assert (NZ : q ++ wits ++ x <> []) by (destruct q; [congruence|discriminate]).
  pose proof (after_app _ _ _ _ _ A BP BZ NZ F eq_refl) as F1. destruct A as (A2 & A3 & _).
  rewrite (M_fwd 1 SG1 _ _ _ _ A2 A3 BZ F1 eq_refl). unfold tail, s3v. t_cbn. rewrite <- bw_len, Z.eqb_refl.
  change (0 <? 1) with true. cbn [andb]. rewrite parse_wits by auto. cbn [bind]. rewrite done_wits. cbn [bind]. cbv iota.
  rewrite sum_wits by auto. rewrite !Z.add_0_r. rewrite R. cbn [bind]. rewrite completed1, andb_true_r. unfold lockst.
  replace (off3 + len x =? off3 + 4) with (len x =? 4); [reflexivity|].
  destruct (Z.eqb_spec (len x) 4), (Z.eqb_spec (off3 + len x) (off3 + 4)); auto; lia.
Qed.
Lemma one_lock : forall x c y a, rd x = Ok (a, off3 + len x, []) -> le_bytes 4 (s_lock v) = x ++ c ++ y -> c <> [] ->
  exists a1, rd (x ++ c) = Ok (a1, off3 + len (x ++ c), []) /\
    tx_parse (lockst x a) c = Ok (lockst (x ++ c) a1, len c, []).
Proof.
  intros x c y a R E NC. rewrite app_assoc in E. destruct (rd_prefix _ _ E) as [a1 R1]. exists a1. split; auto.
  assert (N : len x + len c + len y = 4) by (rewrite <- !len_app, <- E; apply len_le_bytes).
  pose proof (len_nonneg _ y). pose proof (len_nonneg _ x). assert (0 < len c) by (destruct c; [congruence|rewrite len_cons; pose proof (len_nonneg _ c); lia]).
  assert (NW : 1 <= len wits) by (apply wits_pos; [exact W|lia]).
  unfold tx_parse, lockst at 1. t_cbn. destruct (Z.eqb_spec (len x) 4); [lia|].
  pose proof bw_len as BL.
  assert (PI : ins_at (map pin0 (s_ins v)) = 0 \/ True) by auto.
  destruct K as (_ & _ & FI & FO).
  assert (B7 : 7 <= len bw).
  { unfold before_witness. rewrite !len_app, len_le_bytes, !len_cons, len_nil. unfold wire_list. rewrite !compact_one by (pose proof (len_nonneg _ (s_outs v)); lia).
    rewrite !len_app, !len_cons, !len_nil. pose proof (len_nonneg _ (flat_map wire_in (s_ins v))). pose proof (len_nonneg _ (flat_map wire_out (s_outs v))). lia. }
  assert (SIN : zsum (map txin_length (map pin1 (s_ins v))) = zsum (map txin_length (map pin0 (s_ins v)))).
  { rewrite (sum_ins (fun i => parsed_witness (si_wit i)) (s_ins v) FI : zsum (map txin_length (map pin1 (s_ins v))) = _).
    rewrite (sum_ins (fun _ => witness_new) (s_ins v) FI : zsum (map txin_length (map pin0 (s_ins v))) = _). reflexivity. }
  assert (SOU : 0 <= zsum (map txout_length (map parsed_out (s_outs v)))) by (rewrite sum_outs by auto; apply len_nonneg).
  unfold tx_parse_body. cbn [lockst t_version t_ins t_outs t_lock t_segflag t_status t_parsed]. rewrite read_loop_o_stop by lia. cbn [bind].
  unfold tx_parse_count.
  destruct c as [|c0 c]; [congruence|].
  destruct (Z.eqb_spec (off3 + len x) 4); [lia|]. cbn [bind]. destruct (Z.eqb_spec (off3 + len x) 5); [lia|]. cbv iota. cbn [andb bind].
  change (0 <? 1) with true. cbn [andb]. cbv iota.
  destruct (Z.eqb_spec (off3 + len x) 6); [lia|]. cbn [bind].
  rewrite parse_more_done by (apply Forall_map'; reflexivity). cbn [bind]. rewrite SIN.
  rewrite Z.add_0_r.
  destruct (Z.eqb_spec (off3 + len x) (5 + 2 * 1 + zsum (map txin_length (map pin0 (s_ins v))))); [lia|]. cbn [bind].
  rewrite parse_more_done by (apply Forall_map'; reflexivity). cbn [bind]. rewrite Z.add_0_r.
  rewrite <- BL. destruct (Z.eqb_spec (off3 + len x) (len bw)); [lia|]. cbn [andb bind].
  change (0 <? 1) with true. cbn [andb bind]. cbv iota. cbn [bind].
  rewrite done_wits. cbn [bind]. cbv iota. rewrite Z.add_0_r. rewrite sum_wits by auto.
  rewrite read_loop_o_app, R in R1. cbn [bind] in R1. cbv iota in R1. rewrite R1. cbn [bind]. rewrite completed1, andb_true_r.
  unfold lockst. rewrite len_app in *. 
  replace (off3 + (len x + len (c0 :: c)) =? off3 + 4) with (len x + len (c0 :: c) =? 4);
    [|destruct (Z.eqb_spec (len x + len (c0 :: c)) 4), (Z.eqb_spec (off3 + (len x + len (c0 :: c))) (off3 + 4)); auto; lia].
  replace (off3 + (len x + len (c0 :: c)) - (off3 + len x)) with (len (c0 :: c)) by lia. reflexivity.
Qed.
Lemma feed_lock : forall chunks x a, rd x = Ok (a, off3 + len x, []) -> le_bytes 4 (s_lock v) = x ++ concat chunks -> chunks <> [] ->
  Forall (fun c => c <> []) chunks ->
  feed tx_parse t_status (lockst x a) chunks = Ok (lockst (le_bytes 4 (s_lock v)) (s_lock v), len (concat chunks), []).
Proof.
  induction chunks as [|c t IH]; intros x a R E NE F; [congruence|]. inversion F as [|? ? NC F']; subst. cbn [feed concat] in *.
  destruct (one_lock x c (concat t) a R E NC) as (a1 & R1 & T1). rewrite T1. cbn [bind].
  assert (N4 : len (x ++ c ++ concat t) = 4) by (rewrite <- E; apply len_le_bytes). rewrite !len_app in N4.
  destruct t as [|c2 t].
  - cbn [concat] in *. rewrite app_nil_r in *. rewrite len_nil in N4.
    assert (A : a1 = s_lock v).
    { destruct K as (_ & L & _). pose proof (acc32_le4 off3 (s_lock v) [] L) as R2. rewrite app_nil_r, E, R1 in R2. congruence. }
    assert (ST : t_status (lockst (x ++ c) a1) = DONE).
    { cbn [lockst t_status]. rewrite len_app. destruct (Z.eqb_spec (len x + len c) 4); [reflexivity|lia]. }
    rewrite ST, A, E, app_nil_r. reflexivity.
  - assert (L2 : 0 < len (concat (c2 :: t))).
    { inversion F' as [|? ? X _]; subst. cbn [concat]. rewrite len_app. pose proof (len_nonneg _ (concat t)).
      destruct c2; [congruence|]. rewrite len_cons. pose proof (len_nonneg _ c2). lia. }
    assert (ST : t_status (lockst (x ++ c) a1) = INCOMPLETE).
    { cbn [lockst t_status]. rewrite len_app. destruct (Z.eqb_spec (len x + len c) 4); [lia|reflexivity]. }
    rewrite ST. rewrite (IH (x ++ c) a1 R1); [|rewrite <- app_assoc; exact E|discriminate|exact F']. cbn [bind]. rewrite len_app. reflexivity.
Qed.
Lemma feed_all : forall before p s t mid q x aft, after p s -> t_status t <> FAILED -> (forall c, tx_parse t c = tx_parse_body s c) ->
  bw = p ++ concat before ++ q -> q <> [] -> (forall a b, before = a ++ b -> a <> [] -> cut_ok (concat b ++ q)) -> mid = q ++ wits ++ x -> le_bytes 4 (s_lock v) = x ++ concat aft ->
  bytes_ok wits -> bytes_ok x -> Forall (fun c => c <> []) before -> Forall (fun c => c <> []) aft ->
  feed tx_parse t_status t (before ++ mid :: aft) = Ok (lockst (le_bytes 4 (s_lock v)) (s_lock v), off3 + 4 - t_parsed s, []).
Proof.
  induction before as [|c b IH]; intros p s t mid q x aft A NF T E NQ CC EM EL BW BX FB FA.
  - cbn [concat app feed] in *. rewrite T. destruct (one_mid p s q x (concat aft) A E NQ BW EL BX) as (a & R & M).
    rewrite EM, M. cbn [bind].
    assert (N4 : len x + len (concat aft) = 4) by (rewrite <- len_app, <- EL; apply len_le_bytes).
    destruct aft as [|c2 aft].
    + cbn [concat] in *. rewrite app_nil_r in EL. rewrite len_nil in N4.
      assert (AE : a = s_lock v).
      { destruct K as (_ & L & _). pose proof (acc32_le4 off3 (s_lock v) [] L) as R2. rewrite app_nil_r, EL, R in R2. congruence. }
      assert (ST : t_status (lockst x a) = DONE).
      { cbn [lockst t_status]. destruct (Z.eqb_spec (len x) 4); [reflexivity|lia]. }
      rewrite ST, AE, EL. replace (off3 + len x) with (off3 + 4) by lia. reflexivity.
    + assert (L2 : 0 < len (concat (c2 :: aft))).
      { inversion FA as [|? ? X _]; subst. cbn [concat]. rewrite len_app. pose proof (len_nonneg _ (concat aft)).
        destruct c2; [congruence|]. rewrite len_cons. pose proof (len_nonneg _ c2). lia. }
      assert (ST : t_status (lockst x a) = INCOMPLETE).
      { cbn [lockst t_status]. destruct (Z.eqb_spec (len x) 4); [lia|reflexivity]. }
      rewrite ST. rewrite (feed_lock (c2 :: aft) x a R EL) by (auto; discriminate). cbn [bind].
      f_equal. f_equal. f_equal. lia.
  - inversion FB as [|? ? NC FB']; subst. cbn [concat app feed] in *. rewrite <- app_assoc in E. rewrite T.
    assert (NQ2 : concat b ++ q <> []) by (destruct q; [congruence|]; intros X; apply app_eq_nil in X as [_ X]; discriminate).
    destruct (one_before p s c (concat b ++ q) A E NC NQ2 (CC [c] b eq_refl ltac:(discriminate))) as (s1 & A1 & P1). rewrite P1. cbn [bind].
    pose proof A1 as (_ & S1 & _). rewrite S1.
    rewrite (IH (p ++ c) s1 s1 (q ++ wits ++ x) q x aft); auto.
    + cbn [bind]. f_equal. f_equal. f_equal. lia.
    + congruence.
    + intros c'. unfold tx_parse. rewrite S1. reflexivity.
    + rewrite <- app_assoc. exact E.
    + intros a b' -> NA. apply (CC (c :: a) b'); [reflexivity|discriminate].
Qed.
End Feed.
Lemma split_left : forall {A} (a b c d : list A), a ++ b = c ++ d -> len a <= len c -> exists q, c = a ++ q /\ b = q ++ d.
Proof.
  intros A a. induction a as [|x a IH]; intros b c d E L; [exists c; auto|]. destruct c as [|y c].
  { rewrite len_cons, len_nil in L. pose proof (len_nonneg _ a). lia. }
  cbn [app] in E. injection E as -> E. rewrite !len_cons in L. destruct (IH b c d E ltac:(lia)) as (q & -> & ->). exists q. auto.
Qed.
Lemma concat_bytes : forall l, Forall (fun c => c <> [] /\ bytes_ok c) l -> bytes_ok (concat l).
Proof. intros l F. induction F as [|x l [H1 H2] F IH]; cbn; [constructor|]. apply bytes_ok_app; auto. Qed.
Theorem segwit_chunks : forall t v before mid after, t_status t = DONE -> tx_ok v -> Forall wit_ok (s_ins v) ->
  1 <= len (s_ins v) < 253 -> len (s_outs v) < 253 -> has_witness v = true ->
  (forall os o a b, s_outs v = os ++ [o] -> before = a ++ b ->
     ~ unlucky (len (so_script o)) (len (before_witness v) - len (concat a))) ->
  Forall (fun c => c <> [] /\ bytes_ok c) (before ++ mid :: after) -> concat (before ++ mid :: after) = wire_tx v ->
  len (concat before) < len (before_witness v) -> len (concat after) <= 4 ->
  exists t', feed tx_parse t_status t (before ++ mid :: after) = Ok (t', len (wire_tx v), []) /\ t_status t' = DONE /\ tx_holds t' v.
Proof.
  intros t v before mid aft S K W NI NO HW SO F E LB LA. exists (parsed_tx v). split; [|split; [reflexivity|apply parsed_tx_holds; auto]].
  assert (WE : wire_tx v = before_witness v ++ flat_map (fun i => wire_witness (si_wit i)) (s_ins v) ++ le_bytes 4 (s_lock v)).
  { unfold wire_tx, before_witness. rewrite HW. unfold wire_segwit. rewrite <- !app_assoc. reflexivity. }
  assert (BE : bytes_ok (wire_tx v)) by (rewrite <- E; apply concat_bytes; auto).
  rewrite WE in BE. apply bytes_ok_app in BE as [BB BE]. apply bytes_ok_app in BE as [BW BL].
  rewrite concat_app in E. cbn [concat] in E. rewrite WE in E.
  destruct (split_left _ _ _ _ E ltac:(lia)) as (q & E1 & E2).
  assert (NQ : q <> []) by (intros ->; rewrite app_nil_r in E1; rewrite E1 in LB; lia).
  assert (E3 : (q ++ flat_map (fun i => wire_witness (si_wit i)) (s_ins v)) ++ le_bytes 4 (s_lock v) = mid ++ concat aft) by (rewrite <- app_assoc; auto).
  assert (L4 : len (le_bytes 4 (s_lock v)) = 4) by apply len_le_bytes.
  destruct (split_left _ _ _ _ E3) as (x & E4 & E5).
  { assert (X : len ((q ++ flat_map (fun i => wire_witness (si_wit i)) (s_ins v)) ++ le_bytes 4 (s_lock v)) = len (mid ++ concat aft)) by (f_equal; exact E3).
    rewrite (len_app _ _ (le_bytes 4 (s_lock v))), (len_app _ mid), L4 in X. lia. }
  rewrite <- app_assoc in E4.
  assert (BX : bytes_ok x) by (rewrite E5 in BL; apply bytes_ok_app in BL; tauto).
  apply Forall_app in F as [F1 F2]. inversion F2 as [|? ? _ F3]; subst.
  rewrite (feed_all v K W NI NO BB before [] s0 t _ q x aft); auto.
  - unfold parsed_tx, lockst. rewrite HW, L4. cbn [b2z s0 t_parsed]. rewrite WE, !len_app, L4. change (4 =? 4) with true. cbv iota.
    replace (len (before_witness v) + len (flat_map (fun i => wire_witness (si_wit i)) (s_ins v)) + 4 - 0) with (len (before_witness v) + (len (flat_map (fun i => wire_witness (si_wit i)) (s_ins v)) + 4)) by lia.
    replace (len (before_witness v) + len (flat_map (fun i => wire_witness (si_wit i)) (s_ins v)) + 4) with (len (before_witness v) + (len (flat_map (fun i => wire_witness (si_wit i)) (s_ins v)) + 4)) by lia.
    reflexivity.
  - apply after_nil.
  - congruence.
  - intros c. unfold tx_parse. rewrite S. reflexivity.
  - intros a b -> _ os o EO. specialize (SO os o a b EO eq_refl). rewrite E1, concat_app, !len_app in SO. rewrite len_app.
    replace (len (concat a) + len (concat b) + len q - len (concat a)) with (len (concat b) + len q) in SO by lia. exact SO.
  - eapply Forall_impl; [|exact F1]. intros a [H _]. exact H.
  - eapply Forall_impl; [|exact F3]. intros a [H _]. exact H.
Qed.

(** ** Cuts that fail *)
Lemma parse_to_tail : forall t v x, t_status t = DONE -> tx_ok v -> bytes_ok (before_witness v ++ x) -> 1 <= len (s_ins v) < 253 -> len (s_outs v) < 253 ->
  tx_parse t (before_witness v ++ x) = tail 0 (s3v v) x.
Proof.
  intros t v x S K B NI NO. pose proof B as B'. apply bytes_ok_app in B' as [BB BX]. unfold tx_parse. rewrite S.
  change (mkTx 0 [] [] 0 0 INCOMPLETE 0) with s0.
  exact (M_fwd 1 SG1 s0 _ _ _ s0_I1 eq_refl B (F7_wire v x K BB BX NI NO) eq_refl).
Qed.
Lemma parse_all_app : forall {E} (parse : E -> list Z -> outcome (E * Z * list Z)) l1 l2 st,
  parse_all parse (l1 ++ l2) st =
  let! r := parse_all parse l1 st in let '(a, n, st1) := r in
  let! r2 := parse_all parse l2 st1 in let '(b, m, st2) := r2 in Ok (a ++ b, n + m, st2).
Proof.
  induction l1 as [|e l1 IH]; intros l2 st; cbn [app parse_all bind].
  - destruct (parse_all parse l2 st) as [[[b m] r]|]; reflexivity.
  - destruct (parse e st) as [[[e1 n1] s1]|]; cbn [bind]; auto. rewrite IH.
    destruct (parse_all parse l1 s1) as [[[a n] s2]|]; cbn [bind]; auto.
    destruct (parse_all parse l2 s2) as [[[b m] s4]|]; cbn [bind app]; auto. rewrite Z.add_assoc. reflexivity.
Qed.
Lemma more_failed : forall l1 i l2, exists l, parse_more txin_parse_wit txin_wit_status
    (map pin1 l1 ++ map (fun i => parsed_in i (mkWitness [] 0 0 0 0 0 0 0 FAILED 0)) (i :: l2)) [] = Ok (l, 0, [], true).
Proof.
  induction l1 as [|e l1 IH]; intros i l2; cbn [map app parse_more bind].
  - eexists. reflexivity.
  - destruct (IH i l2) as [l E]. cbn [map app] in E. rewrite E. cbn [bind]. eexists. reflexivity.
Qed.
Theorem wit_boundary_cut : forall t v l1 i l2, t_status t = DONE -> tx_ok v -> Forall wit_ok (s_ins v) -> s_ins v = l1 ++ i :: l2 ->
  len (s_ins v) < 253 -> len (s_outs v) < 253 ->
  let part := before_witness v ++ flat_map (fun i => wire_witness (si_wit i)) l1 in bytes_ok part ->
  exists t', tx_parse t part = Ok (t', len part, []) /\ t_status t' = FAILED.
Proof.
  intros t v l1 i l2 S K W EI NI NO part B. subst part.
  assert (N1 : 1 <= len (s_ins v)).
  { rewrite EI, len_app, len_cons. pose proof (len_nonneg _ l1). pose proof (len_nonneg _ l2). lia. }
  rewrite (parse_to_tail t v _ S K B (conj N1 NI) NO). unfold tail, s3v. t_cbn. rewrite <- (bw_len v K (conj N1 NI) NO), Z.eqb_refl.
  change (0 <? 1) with true. cbn [andb]. rewrite EI. rewrite map_app, parse_all_app.
  rewrite EI in W. apply Forall_app in W as [W1 W2].
  pose proof (parse_wits l1 [] W1) as PW. rewrite app_nil_r in PW. rewrite PW. cbn [bind]. rewrite wits_empty. cbn [bind]. cbv iota.
  destruct (more_failed l1 i l2) as [l M]. cbn [map] in M |- *. rewrite M. cbn [bind]. cbv iota.
  rewrite len_app.
  match goal with |- exists _, Ok (?x, ?a, _) = Ok (_, ?b, _) /\ _ => exists x; replace a with b by lia end. split; reflexivity.
Qed.

(** Every unlucky cut. *)
Definition cut_bytes (pre : list Z) : Prop := pre = [253] \/ pre = [253; 1] \/ pre = [254] \/ pre = [254; 1] \/ pre = [254; 2; 0] \/ pre = [254; 3; 0; 0].
Lemma out_cut_parse : forall o pre, out_ok o -> cut_bytes pre -> exists e,
  txout_parse txout_new (le_bytes 8 (so_value o) ++ pre) = Ok (e, 8 + len pre, []) /\ to_status e = INCOMPLETE /\ txout_length e = 8 + len pre.
Proof.
  intros o pre (V & _) C. unfold txout_parse. cbn [txout_new to_status]. cbv zeta. unfold txout_parse_body. to_cbn.
  rewrite amount_loop by auto. cbn [bind fst snd].
  destruct C as [->|[->|[->|[->|[->| ->]]]]]; (eexists; split; [reflexivity|split; reflexivity]).
Qed.
Lemma unlucky_bytes : forall n x pre rest, 0 <= n < 2^31 -> len x = n -> compact_size n ++ x = pre ++ rest -> unlucky n (len rest) -> cut_bytes pre.
Proof.
  intros n x pre rest N LX E [K M].
  assert (LE : len (compact_size n) + n = len pre + len rest) by (rewrite <- LX at 2; rewrite <- !len_app, E; reflexivity).
  replace (len (compact_size n) + n - len rest) with (len pre) in * by lia.
  unfold compact_size in *. destruct (Z.ltb_spec n 253); [rewrite len_cons, len_nil in K; lia|].
  assert (B0 : forall m, m mod 2^0 = 0) by (intros m; apply Z.mod_1_r).
  destruct (n <? 2^16).
  - destruct pre as [|b0 [|b1 [|b2 pre]]]; [rewrite len_nil in K; lia| | |exfalso; rewrite !len_cons, len_le_bytes in K; pose proof (len_nonneg _ pre); lia].
    + cbn [app le_bytes] in E. left. congruence.
    + cbn [app le_bytes] in E. change (len [b0; b1]) with 2 in M. change (8 * (2 - 1)) with 8 in M. right; left. assert (b1 = n mod 256) by congruence. change (2^8) with 256 in M. assert (b0 = 253) by congruence. subst. rewrite M. reflexivity.
  - destruct (Z.ltb_spec n (2^32)); [|lia].
    destruct pre as [|b0 [|b1 [|b2 [|b3 [|b4 pre]]]]]; [rewrite len_nil in K; lia| | | | |exfalso; rewrite !len_cons, len_le_bytes in K; pose proof (len_nonneg _ pre); lia]; cbn [app le_bytes] in E.
    + right; right; left. congruence.
    + right; right; right; left. change (len [b0; b1]) with 2 in M. change (8 * (2 - 1)) with 8 in M. assert (b1 = n mod 256) by congruence. change (2^8) with 256 in M. assert (b0 = 254) by congruence. subst. rewrite M. reflexivity.
    + right; right; right; right; left. change (len [b0; b1; b2]) with 3 in M. change (8 * (3 - 1)) with 16 in M. assert (b1 = n mod 256) by congruence. assert (b2 = (n / 256) mod 256) by congruence. assert (b0 = 254) by congruence.
      change (2^16) with 65536 in M. assert (b1 = 2) by dlia. assert (b2 = 0) by dlia. subst b0. congruence.
    + right; right; right; right; right. change (len [b0; b1; b2; b3]) with 4 in M. change (8 * (4 - 1)) with 24 in M. assert (b1 = n mod 256) by congruence. assert (b2 = (n / 256) mod 256) by congruence. assert (b3 = (n / 256 / 256) mod 256) by congruence. assert (b0 = 254) by congruence.
      change (2^24) with 16777216 in M. assert (b1 = 3) by dlia. assert (b2 = 0) by dlia. assert (b3 = 0) by dlia. subst b0. congruence.
Qed.
Theorem long_output_cut : forall t v l o part rest, t_status t = DONE -> tx_ok v -> 1 <= len (s_ins v) < 253 -> len (s_outs v) < 253 ->
  s_outs v = l ++ [o] -> before_witness v = part ++ rest -> unlucky (len (so_script o)) (len rest) ->
  exists t', tx_parse t part = Ok (t', len part, []) /\ t_status t' = FAILED.
Proof.
  intros t v l o part rest D (V & L & FI & FO) NI NO EO EP U. pose proof (len_nonneg _ (s_outs v)) as NO0.
  assert (RI : Z.to_nat (len (s_ins v)) = length (s_ins v)) by (unfold len; lia).
  assert (RO : Z.to_nat (len (s_outs v)) = (length l + 1)%nat) by (rewrite EO; unfold len; rewrite app_length; cbn; lia).
  rewrite EO in FO. apply Forall_app in FO as [FL FO]. inversion FO as [|? ? OO _]; subst.
  set (front := le_bytes 4 (s_version v) ++ [0; 1] ++ [len (s_ins v)] ++ flat_map wire_in (s_ins v) ++ [len (s_outs v)] ++ flat_map wire_out l ++ le_bytes 8 (so_value o)).
  assert (EF : front ++ (compact_size (len (so_script o)) ++ so_script o) = part ++ rest).
  { rewrite <- EP. unfold before_witness, wire_list, front. rewrite (compact_one (len (s_ins v))), (compact_one (len (s_outs v))) by lia. rewrite EO, flat_map_app. cbn [flat_map]. rewrite app_nil_r.
    unfold wire_out at 3, wire_bytes. rewrite <- EO, <- !app_assoc. reflexivity. }
  assert (LF : len front <= len part).
  { assert (X : len front + (len (compact_size (len (so_script o))) + len (so_script o)) = len part + len rest) by (rewrite <- !len_app, EF; reflexivity).
    destruct U as [U _]. lia. }
  destruct (split_left _ _ _ _ EF LF) as (pre & -> & EC).
  assert (CB : cut_bytes pre).
  { destruct OO as (_ & _ & X). apply (unlucky_bytes (len (so_script o)) (so_script o) pre rest); auto. pose proof (len_nonneg _ (so_script o)). lia. }
  destruct (out_cut_parse o pre OO CB) as (e & PE & SE & LE).
  - unfold tx_parse. rewrite D. unfold tx_parse_body. cbn [t_parsed t_version t_ins t_outs t_lock t_segflag].
    assert (LP : len (front ++ pre) = 4 + 2 + 1 + len (flat_map wire_in (s_ins v)) + 1 + len (flat_map wire_out l) + (8 + len pre)).
    { unfold front. rewrite !len_app, !len_le_bytes, !len_cons, !len_nil. lia. }
    rewrite LP. unfold front. rewrite <- !app_assoc. cbn [app].
    change (read_loop_o 4 0 (acc32 0) 0) with (read_loop_o (0 + 4) 0 (acc32 0) 0).
    rewrite (acc32_le4 0) by auto. change (0 + 4) with 4. cbn [bind].
    unfold tx_parse_count. change (4 =? 4) with true. change (0 =? 0) with true. cbv iota. cbn [bind].
    change (4 + 1) with 5. change (0 <? 1) with true. change (5 =? 5) with true. cbn [andb]. cbv iota.
    change (1 =? 1) with true. cbn [negb]. cbv iota. change (5 + 1) with 6. change (6 =? 6) with true. cbv iota.
    rewrite RI, parse_ins by auto. cbn [bind].
    rewrite parse_more_done by (apply Forall_map'; reflexivity). cbn [bind].
    rewrite (sum_ins (fun _ => witness_new) (s_ins v) FI : zsum (map txin_length (map pin0 (s_ins v))) = _).
    set (A := len (flat_map wire_in (s_ins v))). rewrite Z.add_0_r.
    replace (6 + 1 + A =? 5 + 2 * 1 + A) with true by (symmetry; apply Z.eqb_eq; lia).
    rewrite RO, repeat_app, parse_all_app, parse_outs by auto. cbn [bind repeat parse_all].
    rewrite PE. cbn [bind]. rewrite Z.add_0_r.
    assert (MO : parse_more txout_parse to_status (map parsed_out l ++ [e]) [] = Ok (map parsed_out l ++ [e], 0, [], false)).
    { apply more_idle. apply Forall_app. split; [apply Forall_map'; discriminate|]. constructor; [congruence|constructor]. }
    rewrite MO. cbn [bind]. rewrite map_app. cbn [map].
    assert (ZS : forall a b, zsum (a ++ [b]) = zsum a + b).
    { intros a b. unfold zsum. rewrite fold_right_app. cbn [fold_right]. rewrite Z.add_0_r. induction a as [|x a IH]; cbn [fold_right]; [lia|]. rewrite IH. lia. }
    rewrite ZS, sum_outs by auto. rewrite LE.
    set (O := len (flat_map wire_out l)). rewrite Z.add_0_r.
    replace (6 + 1 + A + 1 + (O + (8 + len pre)) =? 5 + 2 * 1 + A + 1 + (O + (8 + len pre))) with true by (symmetry; apply Z.eqb_eq; lia).
    change (0 <? 1) with true. cbn [andb]. rewrite wits_empty. cbn [bind]. cbv iota.
    destruct (s_ins v) as [|i ll] eqn:EI; [cbn in NI; lia|]. cbn [map parse_more txin_wit_status parsed_in ti_wit wi_status bind pstatus_eqb].
    match goal with |- exists _, Ok (?x, ?a, _) = Ok (_, ?b, _) /\ _ => exists x; replace a with b by lia end. split; reflexivity.
Qed.
