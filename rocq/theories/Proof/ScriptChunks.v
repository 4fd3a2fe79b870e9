(** Script: incremental parsing. *)
From Coq Require Import Lia.
From Verif Require Import Base.Bytes Base.BytesFacts Model.Conversion Model.Stream Model.Script
  Spec.Codecs Spec.Wire Proof.IntVarint Proof.StreamFacts Proof.Chunks Proof.ScriptFacts.
Open Scope Z_scope.

(** The length read so far, [pos] bytes into the script. *)
Definition len_inv (l lenLen pos : Z) : Prop :=
  1 <= pos /\ (lenLen = 1 \/ lenLen = 3 \/ lenLen = 5 \/ lenLen = 9) /\
  ((pos < lenLen /\ 0 <= l /\ (pos <= 4 -> l < 2^(8 * (pos - 1)))) \/
   (lenLen <= pos <= l + lenLen /\ 0 <= l < 2^31 /\ lenVarInt l = lenLen)).

Lemma len_step_ok : forall acc pos c v, script_len_step acc pos c = Ok v -> byte_ok c -> 1 <= pos ->
  0 <= acc -> (pos <= 4 -> acc < 2^(8 * (pos - 1))) ->
  0 <= v /\ pos <= 4 /\ (pos + 1 <= 4 -> v < 2^(8 * (pos + 1 - 1))).
Proof.
  intros acc pos c v H B P A L. unfold script_len_step, shl_int in H. unfold byte_ok in B.
  destruct (Z.leb_spec 0 (8 * (pos - 1))); [|lia]. destruct (Z.ltb_spec (8 * (pos - 1)) 32); [|discriminate].
  cbn [andb bind] in H. injection H as <-. split; [apply Z.mod_pos_bound; lia|]. split; [lia|]. intros Q.
  change (match pos - 1 with 0 => 0 | Z.pos y' => Z.pos y'~0~0~0 | Z.neg y' => Z.neg y'~0~0~0 end) with (8 * (pos - 1)).
  rewrite Z.shiftl_mul_pow2 by lia.
  assert (pos = 1 \/ pos = 2 \/ pos = 3) as [-> | [-> | ->]] by lia;
    specialize (L ltac:(lia)); cbn [Z.sub Z.mul Z.add Z.pow Z.pow_pos Pos.iter Z.opp Z.pos_sub Pos.mul Pos.add Pos.pred_double Pos.succ] in *;
    (rewrite i32_id by lia); (rewrite u64_id by lia); lia.
Qed.
Lemma len_loop_inv : forall s lenLen pos acc acc1 pos1 r, bytes_ok s ->
  read_loop_o lenLen pos script_len_step acc s = Ok (acc1, pos1, r) -> 1 <= pos <= lenLen ->
  0 <= acc -> (pos < lenLen -> pos <= 4 -> acc < 2^(8 * (pos - 1))) ->
  0 <= acc1 /\ (pos1 < lenLen -> pos1 <= 4 -> acc1 < 2^(8 * (pos1 - 1))).
Proof.
  induction s as [|c t IH]; intros lenLen pos acc acc1 pos1 r B H P A L; cbn [read_loop_o] in H.
  - injection H as <- <- <-. auto.
  - destruct (Z.ltb_spec pos lenLen).
    + destruct (script_len_step acc pos c) as [v|] eqn:E; [|discriminate]. cbn [bind] in H.
      inversion B; subst. destruct (len_step_ok _ _ _ _ E ltac:(auto) ltac:(lia) A ltac:(intros; apply L; lia)) as (V1 & V2 & V3).
      eapply IH; eauto; lia.
    + injection H as <- <- <-. auto.
Qed.

Lemma mid_length_not_done : forall l lenLen pos, 1 <= pos -> lenLen <= 9 -> pos < lenLen -> 0 <= l ->
  (pos <= 4 -> l < 2^(8 * (pos - 1))) -> pos = u64 (l + lenLen) -> 5 <= pos.
Proof.
  intros l lenLen pos P LL H L B E. destruct (Z.le_gt_cases pos 4); [exfalso|lia]. specialize (B ltac:(lia)).
  assert (2 ^ (8 * (pos - 1)) <= 2^24) by (apply Z.pow_le_mono_r; lia).
  rewrite u64_id in E by lia. lia.
Qed.

Section B2.
Notation chain := (chain script_parse sc_status).
Notation same := (same_result sc_status).

Lemma resume : forall arr l lenLen pos b, 1 <= pos ->
  script_parse (mkScript arr l lenLen INCOMPLETE pos) b = body2 pos arr l lenLen pos b.
Proof.
  intros. unfold script_parse. cbn [sc_status]. rewrite body_more by (cbn [sc_parsed]; lia). reflexivity.
Qed.

Lemma body2_two : forall p0 arr l lenLen pos a b, len_inv l lenLen pos -> p0 <= pos ->
  bytes_ok a -> bytes_ok b -> b <> [] -> body2 p0 arr l lenLen pos (a ++ b) <> UB ->
  same (body2 p0 arr l lenLen pos (a ++ b)) (chain (body2 p0 arr l lenLen pos a) b).
Proof.
  intros p0 arr l lenLen pos a b (P & LL & I) PP BA BB NB. unfold body2.
  rewrite read_loop_o_app.
  destruct (read_loop_o lenLen pos script_len_step l a) as [[[len2 pos2] st2]|] eqn:R1; cbn [bind].
  2:{ congruence. }
  pose proof (read_loop_o_pos _ _ _ _ _ _ _ _ R1) as (Q1 & Q2 & Q3 & Q4 & _).
  destruct (Z.ltb_spec pos2 lenLen) as [Hlt|Hge].
  - (* cut inside the length *)
    destruct Q4 as [->|]; [|lia]. destruct I as [(I1 & I2 & I3)|]; [|lia].
    pose proof (len_loop_inv _ _ _ _ _ _ _ BA R1 ltac:(lia) I2 ltac:(auto)) as (J1 & J2).
    destruct (Z.eqb_spec pos2 lenLen); [lia|]. cbn [andb]. cbn [read_loop_o bind].
    unfold Chunks.chain at 1. cbn [bind sc_status].
    destruct (Z.eqb_spec pos2 (u64 (len2 + lenLen))) as [E|E].
    + pose proof (mid_length_not_done len2 lenLen pos2 ltac:(lia) ltac:(lia) Hlt J1 ltac:(auto) E).
      destruct b as [|c t]; [congruence|]. cbn [read_loop_o]. destruct (Z.ltb_spec pos2 lenLen); [|lia].
      unfold script_len_step at 1, shl_int. destruct (Z.leb_spec 0 (8 * (pos2 - 1))); [|lia].
      destruct (Z.ltb_spec (8 * (pos2 - 1)) 32); [lia|]. cbn [andb bind]. congruence.
    + intros D. cbn [sc_status]. rewrite resume by lia. unfold body2. revert D.
      destruct (read_loop_o lenLen pos2 script_len_step len2 b) as [[[len3 pos3] st3]|] eqn:R2; cbn [bind]; [|congruence].
      destruct ((pos3 =? lenLen) && (0 <? len3) && negb (alloc_ok len3)).
      { intros _. right. split; do 3 eexists; cbn [bind]; split; reflexivity. }
      destruct ((pos3 =? lenLen) && negb (lenVarInt len3 =? lenLen)).
      { intros _. left. cbn [bind]. do 3 f_equal. lia. }
      cbv zeta. destruct (read_loop_o (u64 (len3 + lenLen)) pos3 _ _ st3) as [[[arr4 pos4] st4]|]; cbn [bind]; [|congruence].
      intros _. left. do 3 f_equal. lia.
  - (* the length is complete *)
    assert (W : match st2 with [] => read_loop_o lenLen pos2 script_len_step len2 b
                | _ :: _ => Ok (len2, pos2, st2 ++ b) end = Ok (len2, pos2, st2 ++ b)).
    { destruct st2; auto. rewrite read_loop_o_stop by lia. auto. }
    rewrite W. clear W. cbn [bind].
    destruct ((pos2 =? lenLen) && (0 <? len2) && negb (alloc_ok len2)) eqn:C1.
    { intros _. left. reflexivity. }
    assert (L2 : 0 <= len2 < 2^31 /\ lenLen <= pos2 <= len2 + lenLen /\ (lenLen < pos2 -> lenVarInt len2 = lenLen)).
    { destruct I as [(I1 & I2 & I3)|(I1 & I2 & I4)].
      - pose proof (len_loop_inv _ _ _ _ _ _ _ BA R1 ltac:(lia) I2 ltac:(auto)) as (J1 & _).
        assert (pos2 = lenLen) as E by lia. destruct (Z.eqb_spec pos2 lenLen); [|lia].
        cbn [andb] in C1. unfold alloc_ok in C1.
        destruct (Z.ltb_spec 0 len2); destruct (Z.ltb_spec len2 (2^31)); cbn in C1; try discriminate; lia.
      - rewrite read_loop_o_stop in R1 by lia. injection R1 as <- <- <-. lia. }
    destruct ((pos2 =? lenLen) && negb (lenVarInt len2 =? lenLen)) eqn:C2.
    { intros _. left. reflexivity. }
    cbv zeta. rewrite (u64_id (len2 + lenLen)) by lia. set (L := len2 + lenLen) in *.
    set (arr2 := if (pos2 =? lenLen) && (0 <? len2) then zeros (Z.to_nat len2) else arr).
    rewrite read_loop_o_app.
    destruct (read_loop_o L pos2 (script_byte_step lenLen) arr2 st2) as [[[arr3 pos3] st3]|] eqn:R3; cbn [bind]; [|congruence].
    pose proof (read_loop_o_pos _ _ _ _ _ _ _ _ R3) as (S1 & S2 & S3 & S4 & _).
    unfold Chunks.chain at 1. cbn [bind sc_status].
    destruct (Z.eqb_spec pos3 L) as [E|E].
    + assert (W : match st3 with [] => read_loop_o L pos3 (script_byte_step lenLen) arr3 b
                  | _ :: _ => Ok (arr3, pos3, st3 ++ b) end = Ok (arr3, pos3, st3 ++ b)).
      { destruct st3; auto. rewrite read_loop_o_stop by lia. auto. }
      rewrite W. cbn [bind]. intros _. left. destruct (Z.eqb_spec pos3 L); [reflexivity|lia].
    + destruct S4 as [->|]; [|lia]. cbn [sc_status]. rewrite resume by lia. unfold body2.
      rewrite (read_loop_o_stop lenLen script_len_step b pos3 len2) by lia. cbn [bind].
      assert (A2 : (if (pos3 =? lenLen) && (0 <? len2) then zeros (Z.to_nat len2) else arr3) = arr3).
      { destruct (Z.eqb_spec pos3 lenLen); cbn [andb]; auto.
        assert (pos2 = lenLen) as -> by lia.
        assert (st2 = []) as -> by (rewrite len_nil in S1; destruct st2; auto; rewrite len_cons in S1; pose proof (len_nonneg _ st2); lia).
        cbn [read_loop_o] in R3. injection R3 as <- <-. subst arr2. rewrite Z.eqb_refl. cbn [andb].
        destruct (0 <? len2); auto. }
      assert (K1 : (pos3 =? lenLen) && (0 <? len2) && negb (alloc_ok len2) = false).
      { unfold alloc_ok. destruct (Z.ltb_spec len2 (2^31)); [|lia]. apply andb_false_r. }
      assert (K2 : (pos3 =? lenLen) && negb (lenVarInt len2 =? lenLen) = false).
      { destruct (Z.eqb_spec pos3 lenLen); auto. assert (pos2 = lenLen) as E2 by lia. rewrite E2, Z.eqb_refl in C2. exact C2. }
      rewrite A2, K1, K2. cbv zeta. fold L. rewrite (u64_id L) by (unfold L; lia).
      destruct (read_loop_o L pos3 (script_byte_step lenLen) arr3 b) as [[[arr4 pos4] st4]|]; cbn [bind]; [|congruence].
      intros _. left. do 3 f_equal. lia.
Qed.

Lemma body2_inc : forall p0 arr l lenLen pos a s1 n1 r1, len_inv l lenLen pos -> bytes_ok a ->
  body2 p0 arr l lenLen pos a = Ok (s1, n1, r1) -> sc_status s1 = INCOMPLETE ->
  r1 = [] /\ len_inv (sc_len s1) (sc_lenLen s1) (sc_parsed s1) /\ sc_parsed s1 <> u64 (sc_len s1 + sc_lenLen s1).
Proof.
  intros p0 arr l lenLen pos a s1 n1 r1 (P & LL & I) BA H IN. unfold body2 in H.
  destruct (read_loop_o lenLen pos script_len_step l a) as [[[len2 pos2] st2]|] eqn:R1; cbn [bind] in H; [|discriminate].
  pose proof (read_loop_o_pos _ _ _ _ _ _ _ _ R1) as (Q1 & Q2 & Q3 & Q4 & _).
  destruct ((pos2 =? lenLen) && (0 <? len2) && negb (alloc_ok len2)) eqn:C1.
  { injection H as <- <- <-. discriminate. }
  destruct ((pos2 =? lenLen) && negb (lenVarInt len2 =? lenLen)) eqn:C2.
  { injection H as <- <- <-. discriminate. }
  cbv zeta in H.
  destruct (read_loop_o (u64 (len2 + lenLen)) pos2 _ _ st2) as [[[arr3 pos3] st3]|] eqn:R3; cbn [bind] in H; [|discriminate].
  injection H as <- <- <-. cbn [sc_status sc_len sc_lenLen sc_parsed] in *.
  pose proof (read_loop_o_pos _ _ _ _ _ _ _ _ R3) as (S1 & S2 & S3 & S4 & _).
  destruct (Z.eqb_spec pos3 (u64 (len2 + lenLen))) as [|N]; [discriminate|]. unfold len_inv.
  destruct (Z.ltb_spec pos2 lenLen) as [Hlt|Hge].
  - destruct Q4 as [->|]; [|lia]. destruct I as [(I1 & I2 & I3)|]; [|lia].
    pose proof (len_loop_inv _ _ _ _ _ _ _ BA R1 ltac:(lia) I2 ltac:(auto)) as (J1 & J2).
    cbn [read_loop_o] in R3. injection R3 as <- <- <-. split; [auto|]. split; [|exact N]. split; [lia|]. split; [lia|]. left. auto.
  - assert (L2 : 0 <= len2 < 2^31 /\ lenLen <= pos2 <= len2 + lenLen /\ (lenLen < pos2 -> lenVarInt len2 = lenLen)).
    { destruct I as [(I1 & I2 & I3)|(I1 & I2 & I4)].
      - pose proof (len_loop_inv _ _ _ _ _ _ _ BA R1 ltac:(lia) I2 ltac:(auto)) as (J1 & _).
        assert (pos2 = lenLen) as E by lia. destruct (Z.eqb_spec pos2 lenLen); [|lia].
        cbn [andb] in C1. unfold alloc_ok in C1.
        destruct (Z.ltb_spec 0 len2); destruct (Z.ltb_spec len2 (2^31)); cbn in C1; try discriminate; lia.
      - rewrite read_loop_o_stop in R1 by lia. injection R1 as <- <- <-. lia. }
    rewrite u64_id in * by lia. destruct S4 as [->|]; [|lia]. split; auto. split; [|exact N]. split; [lia|]. split; [lia|]. right.
    split; [lia|]. split; [lia|]. destruct L2 as (_ & _ & L3).
    destruct (Z.eqb_spec pos2 lenLen); [|apply L3; lia]. destruct (Z.eqb_spec (lenVarInt len2) lenLen); auto. discriminate.
Qed.
End B2.

Definition script_ok (s : script) : Prop :=
  sc_status s = INCOMPLETE -> len_inv (sc_len s) (sc_lenLen s) (sc_parsed s) /\ sc_parsed s <> u64 (sc_len s + sc_lenLen s).

Lemma varint_len_range : forall b, 0 <= b < 256 -> let v := varint_len b in
  (v = 1 \/ v = 3 \/ v = 5 \/ v = 9) /\ (253 <= b -> 2 <= v).
Proof.
  intros b H. unfold varint_len. destruct (Z.ltb_spec b 253); [lia|].
  assert (b = 253 \/ b = 254 \/ b = 255) as [-> | [-> | ->]] by lia; cbn; lia.
Qed.
Lemma first_inv : forall b, byte_ok b -> b < 253 -> len_inv b 1 1.
Proof.
  intros b B H. unfold byte_ok in B. unfold len_inv. split; [lia|]. split; [lia|]. right. split; [lia|]. split; [lia|].
  unfold lenVarInt. destruct (Z.ltb_spec b 253); [reflexivity|lia].
Qed.
Lemma first_inv2 : forall b, byte_ok b -> 253 <= b -> len_inv 0 (varint_len b) 1.
Proof.
  intros b B H. unfold byte_ok in B. pose proof (varint_len_range b ltac:(lia)) as (V & W). unfold len_inv.
  repeat split; try lia. 
Qed.

Lemma script_two : forall s a b, script_ok s -> a <> [] -> b <> [] -> bytes_ok a -> bytes_ok b ->
  script_parse s (a ++ b) <> UB -> same_result sc_status (script_parse s (a ++ b)) (chain script_parse sc_status (script_parse s a) b).
Proof.
  intros s a b OK NA NB BA BB. unfold script_parse at 1 2 4.
  assert (F : forall s0, sc_parsed s0 = 0 -> script_parse_body s0 (a ++ b) <> UB ->
    same_result sc_status (script_parse_body s0 (a ++ b)) (chain script_parse sc_status (script_parse_body s0 a) b)).
  { intros s0 Z0. destruct a as [|x t]; [congruence|]. inversion BA; subst. cbn [app].
    rewrite !body_first by auto. destruct (Z.ltb_spec x 253); intros D;
      apply body2_two; auto using first_inv, first_inv2; lia. }
  destruct (sc_status s) eqn:S.
  - apply F. unfold script_clear. cbn [sc_len]. destruct (0 <? sc_len s); reflexivity.
  - destruct (OK S) as [OK1 _]. clear OK. rename OK1 into OK. assert (1 <= sc_parsed s) by (destruct OK; auto). rewrite !body_more by lia.
    intros D. apply body2_two; auto. lia.
  - intros _. left. unfold chain. cbn [bind]. rewrite S. reflexivity.
Qed.
Lemma script_inc : forall s a s1 n1 r1, script_ok s -> a <> [] -> bytes_ok a -> script_parse s a = Ok (s1, n1, r1) ->
  sc_status s1 = INCOMPLETE -> r1 = [] /\ script_ok s1.
Proof.
  intros s a s1 n1 r1 OK NA BA H IN. unfold script_parse in H.
  assert (F : forall s0, sc_parsed s0 = 0 -> script_parse_body s0 a = Ok (s1, n1, r1) -> r1 = [] /\ script_ok s1).
  { intros s0 Z0 H0. destruct a as [|x t]; [congruence|]. inversion BA; subst. rewrite body_first in H0 by auto.
    destruct (Z.ltb_spec x 253); eapply body2_inc in H0; eauto using first_inv, first_inv2;
      destruct H0; split; auto; intros ?; auto. }
  destruct (sc_status s) eqn:S.
  - eapply F; eauto. unfold script_clear. cbn [sc_len]. destruct (0 <? sc_len s); reflexivity.
  - destruct (OK S) as [OK1 _]. clear OK. rename OK1 into OK. assert (1 <= sc_parsed s) by (destruct OK; auto). rewrite body_more in H by lia.
    eapply body2_inc in H; eauto. destruct H; split; auto; intros ?; auto.
  - injection H as <- <- <-. congruence.
Qed.

Theorem script_chunks : forall s, script_ok s -> chunk_invariant script_parse sc_status s.
Proof.
  intros s OK chunks NE F D. eapply feed_same with (ok := script_ok); eauto using script_two, script_inc.
Qed.

(** A finished script is as long as what was read. *)
Lemma body2_done : forall p0 arr l lenLen pos a s1 n1 r1, len_inv l lenLen pos -> bytes_ok a ->
  body2 p0 arr l lenLen pos a = Ok (s1, n1, r1) -> sc_status s1 <> FAILED ->
  n1 = sc_parsed s1 - p0 /\ (sc_status s1 = DONE -> script_length s1 = sc_parsed s1).
Proof.
  intros p0 arr l lenLen pos a s1 n1 r1 (P & LL & I) BA H NF. unfold body2 in H.
  destruct (read_loop_o lenLen pos script_len_step l a) as [[[len2 pos2] st2]|] eqn:R1; cbn [bind] in H; [|discriminate].
  pose proof (read_loop_o_pos _ _ _ _ _ _ _ _ R1) as (Q1 & Q2 & Q3 & Q4 & _).
  destruct ((pos2 =? lenLen) && (0 <? len2) && negb (alloc_ok len2)) eqn:C1.
  { injection H as <- <- <-. cbn [sc_status] in NF. congruence. }
  destruct ((pos2 =? lenLen) && negb (lenVarInt len2 =? lenLen)) eqn:C2.
  { injection H as <- <- <-. cbn [sc_status] in NF. congruence. }
  cbv zeta in H.
  destruct (read_loop_o (u64 (len2 + lenLen)) pos2 _ _ st2) as [[[arr3 pos3] st3]|] eqn:R3; cbn [bind] in H; [|discriminate].
  injection H as <- <- <-. cbn [sc_status sc_len sc_lenLen sc_parsed] in *. split; [auto|].
  destruct (Z.eqb_spec pos3 (u64 (len2 + lenLen))) as [E|]; [|discriminate]. intros _.
  pose proof (read_loop_o_pos _ _ _ _ _ _ _ _ R3) as (S1 & S2 & S3 & S4 & _).
  unfold script_length. cbn [sc_len]. rewrite E. do 2 f_equal.
  destruct (Z.ltb_spec pos2 lenLen) as [Hlt|Hge].
  - destruct Q4 as [->|]; [|lia]. destruct I as [(I1 & I2 & I3)|]; [|lia].
    pose proof (len_loop_inv _ _ _ _ _ _ _ BA R1 ltac:(lia) I2 ltac:(auto)) as (J1 & J2).
    cbn [read_loop_o] in R3. injection R3 as <- <- <-.
    pose proof (mid_length_not_done len2 lenLen pos2 ltac:(lia) ltac:(lia) Hlt J1 ltac:(auto) E) as G5.
    assert (lenLen = 9) as -> by lia. unfold u64 in E.
    assert (2^64 - 9 <= len2). { destruct (Z.le_gt_cases (2^64 - 9) len2); auto. rewrite Z.mod_small in E by lia. lia. }
    unfold lenVarInt. destruct (Z.ltb_spec len2 253); [lia|]. rewrite !Z.shiftr_div_pow2 by lia.
    assert (0 < len2 / 2^16) by (apply Z.div_str_pos; lia). assert (0 < len2 / 2^32) by (apply Z.div_str_pos; lia).
    destruct (Z.eqb_spec (len2 / 2^16) 0); [lia|]. destruct (Z.eqb_spec (len2 / 2^32) 0); [lia|]. reflexivity.
  - destruct (Z.eqb_spec pos2 lenLen).
    + destruct (Z.eqb_spec (lenVarInt len2) lenLen); auto. discriminate.
    + destruct I as [(I1 & I2 & I3)|(I1 & I2 & I4)]; [lia|].
      rewrite read_loop_o_stop in R1 by lia. injection R1 as <- <- <-. auto.
Qed.
Lemma script_done_len : forall s a s1 n1 r1, script_ok s -> a <> [] -> bytes_ok a -> script_parse s a = Ok (s1, n1, r1) ->
  sc_status s1 <> FAILED ->
  n1 = sc_parsed s1 - (match sc_status s with DONE => 0 | _ => sc_parsed s end) /\
  (sc_status s1 = DONE -> script_length s1 = sc_parsed s1).
Proof.
  intros s a s1 n1 r1 OK NA BA H NF. unfold script_parse in H.
  destruct (sc_status s) eqn:S.
  - destruct a as [|x t]; [congruence|]. inversion BA; subst. rewrite body_first in H.
    2:{ unfold script_clear. cbn [sc_len]. destruct (0 <? sc_len s); reflexivity. }
    destruct (Z.ltb_spec x 253); eapply body2_done in H; eauto using first_inv, first_inv2.
  - destruct (OK S) as [OK1 _]. clear OK. rename OK1 into OK. assert (1 <= sc_parsed s) by (destruct OK; auto). rewrite body_more in H by lia.
    eapply body2_done in H; eauto.
  - injection H as <- <- <-. congruence.
Qed.

(** How many bytes a call reads. *)
Lemma body2_count : forall p0 arr l lenLen pos a s1 n1 r1, p0 <= pos ->
  body2 p0 arr l lenLen pos a = Ok (s1, n1, r1) ->
  0 <= n1 /\ (sc_status s1 = FAILED \/ pos - p0 <= n1) /\ exists p, a = p ++ r1.
Proof.
  intros p0 arr l lenLen pos a s1 n1 r1 PP H. unfold body2 in H.
  destruct (read_loop_o lenLen pos script_len_step l a) as [[[len2 pos2] st2]|] eqn:R1; cbn [bind] in H; [|discriminate].
  pose proof (read_loop_o_pos _ _ _ _ _ _ _ _ R1) as (Q1 & Q2 & Q3 & Q4 & Q5).
  destruct ((pos2 =? lenLen) && (0 <? len2) && negb (alloc_ok len2)).
  { injection H as <- <- <-. split; [lia|]. split; [auto|]. eauto. }
  destruct ((pos2 =? lenLen) && negb (lenVarInt len2 =? lenLen)).
  { injection H as <- <- <-. split; [lia|]. split; [auto|]. eauto. }
  cbv zeta in H.
  destruct (read_loop_o (u64 (len2 + lenLen)) pos2 _ _ st2) as [[[arr3 pos3] st3]|] eqn:R3; cbn [bind] in H; [|discriminate].
  injection H as <- <- <-.
  pose proof (read_loop_o_pos _ _ _ _ _ _ _ _ R3) as (S1 & S2 & S3 & S4 & S5).
  split; [lia|]. split; [right; lia|]. rewrite Q5, S5, app_assoc. eauto.
Qed.
Lemma script_count : forall s a s1 n1 r1, script_ok s -> a <> [] -> bytes_ok a -> script_parse s a = Ok (s1, n1, r1) ->
  0 <= n1 /\ (sc_status s = DONE -> sc_status s1 = FAILED \/ 1 <= n1) /\ exists p, a = p ++ r1.
Proof.
  intros s a s1 n1 r1 OK NA BA H. unfold script_parse in H.
  destruct (sc_status s) eqn:S.
  - destruct a as [|x t]; [congruence|]. rewrite body_first in H.
    2:{ unfold script_clear. cbn [sc_len]. destruct (0 <? sc_len s); reflexivity. }
    assert (E : exists arr l ll, body2 0 arr l ll 1 t = Ok (s1, n1, r1)) by (destruct (x <? 253); eauto).
    destruct E as (arr & l & ll & E). destruct (body2_count 0 _ _ _ 1 _ _ _ _ ltac:(lia) E) as (C1 & C2 & p & C3).
    split; [lia|]. split; [destruct C2; auto; right; lia|]. exists (x :: p). rewrite C3. reflexivity.
  - destruct (OK S) as [OK1 _]. clear OK. rename OK1 into OK. assert (1 <= sc_parsed s) by (destruct OK; auto). rewrite body_more in H by lia.
    destruct (body2_count _ _ _ _ _ _ _ _ _ (Z.le_refl _) H) as (C1 & C2 & C3). split; [auto|]. split; [congruence|auto].
  - injection H as <- <- <-. split; [lia|]. split; [congruence|]. exists []. reflexivity.
Qed.
Lemma script_ok_other : forall s, sc_status s <> INCOMPLETE -> script_ok s.
Proof. intros s H1 H2. congruence. Qed.
Lemma script_parse_failed : forall s st, sc_status s = FAILED -> script_parse s st = Ok (s, 0, st).
Proof. intros s st H. unfold script_parse. rewrite H. reflexivity. Qed.

(** A script shorter than 253 bytes that is being read is not at its end. *)
Lemma body2_end : forall p0 arr l lenLen pos a s1 n1 r1, body2 p0 arr l lenLen pos a = Ok (s1, n1, r1) -> sc_status s1 = DONE ->
  sc_parsed s1 = u64 (sc_len s1 + lenLen).
Proof.
  intros p0 arr l lenLen pos a s1 n1 r1 H D. unfold body2 in H.
  destruct (read_loop_o lenLen pos script_len_step l a) as [[[len2 pos2] st2]|] eqn:R1; cbn [bind] in H; [|discriminate].
  destruct ((pos2 =? lenLen) && (0 <? len2) && negb (alloc_ok len2)).
  { injection H as <- <- <-. discriminate. }
  destruct ((pos2 =? lenLen) && negb (lenVarInt len2 =? lenLen)).
  { injection H as <- <- <-. discriminate. }
  cbv zeta in H.
  destruct (read_loop_o (u64 (len2 + lenLen)) pos2 _ _ st2) as [[[arr3 pos3] st3]|] eqn:R3; cbn [bind] in H; [|discriminate].
  injection H as <- <- <-. cbn [sc_status sc_len sc_lenLen sc_parsed] in *.
  destruct (Z.eqb_spec pos3 (u64 (len2 + lenLen))); [auto|discriminate].
Qed.
Lemma short_inside : forall s a s1 n1 r1, script_ok s -> sc_status s = INCOMPLETE -> a <> [] -> bytes_ok a ->
  script_parse s a = Ok (s1, n1, r1) -> sc_status s1 = DONE -> 0 <= sc_len s1 < 253 -> sc_parsed s < script_length s.
Proof.
  intros s a s1 n1 r1 OK S NA BA H D L. destruct (OK S) as [OK1 OK2].
  destruct (script_done_len _ _ _ _ _ OK NA BA H ltac:(congruence)) as [_ X]. specialize (X D).
  unfold script_parse in H. rewrite S in H. pose proof OK1 as (P & LL & I). rewrite body_more in H by lia.
  apply body2_end in H; auto. rewrite H in X. unfold script_length in *.
  assert (V : lenVarInt (sc_len s1) = 1) by (unfold lenVarInt; destruct (Z.ltb_spec (sc_len s1) 253); [reflexivity|lia]).
  rewrite V, !u64_id in X by lia.
  destruct I as [(I1 & I2 & I3)|(I1 & I2 & I3)]; [lia|]. rewrite u64_id in * by lia. lia.
Qed.
