(** Transactions with more than 252 inputs or outputs; cuts before the witnesses. *)
From Coq Require Import Lia.
From Verif Require Import Base.Bytes Base.BytesFacts Model.Conversion Model.Stream Model.Script Model.Tx
  Spec.Codecs Spec.Wire Spec.Objects Proof.IntVarint Proof.StreamFacts Proof.ScriptFacts Proof.WitnessFacts Proof.TxIo Proof.IoProps Proof.TxSer Proof.TxParse Proof.TxHash.
Open Scope Z_scope.

(** Room for at least [n] bytes. *)
Definition room (cap : option nat) (n : Z) : Prop := match cap with None => True | Some k => n <= Z.of_nat k end.
Lemma room_avail : forall w n, room (w_cap w) n -> 1 <= n -> w_available w = true.
Proof. intros [p [[|k]|] o] n R N; cbn in *; auto. lia. Qed.
Lemma room_adv : forall w n bs, room (w_cap w) n -> room (w_cap (w_adv w bs)) (n - len bs).
Proof. intros [p [k|] o] n bs R; cbn in *; auto. unfold len. lia. Qed.
Lemma writes_exact : forall base bs f w, writes base bs f -> w_pos w = base -> room (w_cap w) (len bs) -> f w = Ok (w_adv w bs).
Proof.
  intros base bs f w W P R. rewrite W by lia. rewrite P, Z.sub_diag. cbn [Z.to_nat skipn]. do 2 f_equal.
  destruct (w_cap w) as [k|]; cbn [wtake]; auto. apply firstn_all2. cbn in R. unfold len in R. lia.
Qed.
Lemma aget_neg : forall l i, i < 0 -> aget l i = UB.
Proof. intros l i H. unfold aget. destruct (Z.leb_spec 0 i); [lia|]. reflexivity. Qed.
Lemma write_one_behind : forall base n arr w, 0 < n -> w_pos w < base -> w_available w = true -> write_one base n arr w = UB.
Proof.
  intros base n arr w N P A. unfold write_one. rewrite A. destruct (Z.ltb_spec (w_pos w) (base + n)); [|lia]. cbn [andb].
  rewrite aget_neg by lia. reflexivity.
Qed.
Lemma write_loop_behind : forall fuel base n arr w, 0 < n -> w_pos w < base -> w_available w = true -> write_loop fuel base n arr w = UB.
Proof.
  intros fuel base n arr w N P A. destruct fuel; cbn [write_loop]; rewrite A; (destruct (Z.ltb_spec (w_pos w) (base + n)); [|lia]); cbn [andb]; auto.
  rewrite aget_neg by lia. reflexivity.
Qed.
(** Objects that start behind the current position write nothing: their offset wraps around. *)
Lemma objs_behind : forall {E X} (lenf : E -> Z) (ser : E -> serializer) (wire : X -> list Z) l xs,
  Forall2 (fun e x => lenf e = len (wire x) /\ serializes (ser e) (wire x)) l xs ->
  forall base w, 0 <= w_pos w < base -> base + len (flat_map wire xs) < 2^63 ->
  write_objs lenf ser l base w = Ok (w, base + len (flat_map wire xs)).
Proof.
  intros E X lenf ser wire l xs F. induction F as [|e x l xs [L S] F IH]; intros base w P B; cbn [write_objs flat_map].
  - rewrite len_nil, Z.add_0_r. reflexivity.
  - cbn [flat_map] in B. rewrite len_app in B. pose proof (len_nonneg _ (wire x)). pose proof (len_nonneg _ (flat_map wire xs)).
    assert (Q : write_obj base (lenf e) (ser e) w = Ok w).
    { unfold write_obj. destruct (w_available w && (w_pos w <? base + lenf e)); auto.
      assert (U : u64 (w_pos w - base) = 2^64 + (w_pos w - base)).
      { unfold u64. rewrite <- (Z.mod_add _ 1) by lia. rewrite Z.mod_small; lia. }
      rewrite U, S by lia. rewrite skipn_all2 by (unfold len in *; lia). rewrite wtake_nil. cbn [bind].
      pose proof (w_adv_nil w) as A. unfold w_adv in A. rewrite A. reflexivity. }
    rewrite Q. cbn [bind]. rewrite IH by lia. rewrite len_app, L. do 2 f_equal. lia.
Qed.
Lemma room_le : forall c n m, room c n -> m <= n -> room c m.
Proof. intros [k|] n m; cbn; lia. Qed.
Lemma size_long : forall n, 253 <= n < 2^64 -> exists b a, compact_size n = b :: a /\ 2 <= len a /\ 253 <= b <= 255 /\ len a <= 8.
Proof.
  intros n H. unfold compact_size. destruct (Z.ltb_spec n 253); [lia|].
  destruct (n <? 2^16); [|destruct (n <? 2^32)]; eexists; eexists; (split; [reflexivity|]); rewrite len_le_bytes; lia.
Qed.
Lemma write_one_hd : forall base n b arr w, 0 < n -> w_pos w = base -> w_available w = true -> write_one base n (b :: arr) w = Ok (w_adv w [b]).
Proof.
  intros base n b arr w N P A. unfold write_one. rewrite A. destruct (Z.ltb_spec (w_pos w) (base + n)); [|lia]. cbn [andb].
  rewrite P, Z.sub_diag. unfold aget. cbn. now rewrite w_put_adv.
Qed.

Lemma wire_tx_ge : forall v, len (wire_legacy v) <= len (wire_tx v).
Proof.
  intros v. unfold wire_tx. destruct (has_witness v); [|lia]. unfold wire_legacy, wire_segwit. rewrite !len_app.
  pose proof (len_nonneg _ (flat_map (fun i => wire_witness (si_wit i)) (s_ins v))). pose proof (len_nonneg _ [0; 1]). lia.
Qed.
Lemma legacy_len : forall v, len (wire_legacy v) = 4 + len (compact_size (len (s_ins v))) + len (flat_map wire_in (s_ins v)) +
  len (compact_size (len (s_outs v))) + len (flat_map wire_out (s_outs v)) + 4.
Proof. intros v. unfold wire_legacy, wire_list. rewrite !len_app, !len_le_bytes. lia. Qed.

Lemma tx_too_many : forall t v cap, tx_holds t v -> 253 <= len (s_ins v) \/ 253 <= len (s_outs v) ->
  len (wire_segwit v) < 2^62 -> room cap (len (wire_tx v)) -> tx_to_stream t cap 0 = UB.
Proof.
  intros t v cap H BIG LIM R. pose proof (holds_counts _ _ H) as (C1 & C2).
  pose proof (ins_parts t v H) as PI. pose proof (outs_parts t v H) as PO. pose proof (wits_parts t v H) as PW.
  assert (HV := H). destruct HV as (V & V1 & L & L1 & _ & _).
  pose proof (wire_tx_ge v) as GE. rewrite legacy_len in GE.
  assert (SL : len (wire_segwit v) = 4 + 2 + len (compact_size (len (s_ins v))) + len (flat_map wire_in (s_ins v)) +
    len (compact_size (len (s_outs v))) + len (flat_map wire_out (s_outs v)) + len (flat_map (fun i => wire_witness (si_wit i)) (s_ins v)) + 4).
  { unfold wire_segwit, wire_list. rewrite !len_app, !len_le_bytes. change (len [0; 1]) with 2. lia. }
  pose proof (len_nonneg _ (s_ins v)) as N1. pose proof (len_nonneg _ (s_outs v)) as N2.
  pose proof (len_nonneg _ (flat_map wire_in (s_ins v))) as N3. pose proof (len_nonneg _ (flat_map wire_out (s_outs v))) as N4.
  pose proof (len_nonneg _ (flat_map (fun i => wire_witness (si_wit i)) (s_ins v))) as N5.
  assert (BN : forall X (w : X -> list Z) l, (forall x, 1 <= len (w x)) -> len l <= len (flat_map w l)).
  { intros X w l G. induction l as [|x l IH]; cbn [flat_map]; [unfold len; cbn; lia|]. rewrite len_cons, len_app. specialize (G x). lia. }
  assert (BI : len (s_ins v) <= len (flat_map wire_in (s_ins v))).
  { apply BN. intros x. unfold wire_in. rewrite !len_app, !len_le_bytes. pose proof (len_nonneg _ (si_prev x)). pose proof (len_nonneg _ (wire_bytes (si_sig x))). lia. }
  assert (BO : len (s_outs v) <= len (flat_map wire_out (s_outs v))).
  { apply BN. intros x. unfold wire_out. rewrite !len_app, !len_le_bytes. pose proof (len_nonneg _ (wire_bytes (so_script x))). lia. }
  pose proof (len_nonneg _ (compact_size (len (s_ins v)))) as N6. pose proof (len_nonneg _ (compact_size (len (s_outs v)))) as N7.
  unfold tx_to_stream. rewrite !le4. cbn [bind].
  assert (W1 : writes 0 (le_bytes 4 (t_version t)) (write_loop 4 0 4 (le_bytes 4 (t_version t)))).
  { apply writes_loop_all; [rewrite len_le_bytes; lia|rewrite le_bytes_length; lia]. }
  assert (R0 : room (w_cap (mkWst 0 cap [])) (len (le_bytes 4 (t_version t)))) by (rewrite len_le_bytes; apply (room_le _ _ _ R); lia).
  rewrite (writes_exact _ _ _ (mkWst 0 cap []) W1 eq_refl R0).
  cbn [bind]. set (w1 := w_adv _ _).
  assert (P1 : w_pos w1 = 4) by (unfold w1, w_adv; cbn [w_pos]; rewrite len_le_bytes; lia).
  assert (R1 : room (w_cap w1) (len (wire_tx v) - 4)).
  { unfold w1. replace 4 with (len (le_bytes 4 (t_version t))) at 2 by (now rewrite len_le_bytes). apply room_adv. exact R. }
  set (sg := tx_isSegwit t).
  set (w2 := if sg && w_available w1 && (w_pos w1 =? 4) then w_put w1 0 else w1).
  set (w3 := if sg && w_available w2 && (w_pos w2 =? 5) then w_put w2 1 else w2).
  assert (X3 : w_pos w3 = 4 + 2 * b2z sg /\ room (w_cap w3) (len (wire_tx v) - 4 - 2 * b2z sg)).
  { unfold w3, w2. destruct sg; cbn [andb b2z].
    - rewrite (room_avail w1 _ R1) by lia. rewrite P1, Z.eqb_refl. cbn [andb]. rewrite w_put_adv.
      pose proof (room_adv w1 _ [0] R1) as R2. change (len [0]) with 1 in R2.
      assert (P2 : w_pos (w_adv w1 [0]) = 5) by (unfold w_adv; cbn [w_pos]; rewrite P1; reflexivity).
      rewrite (room_avail _ _ R2) by lia. rewrite P2, Z.eqb_refl. cbn [andb]. rewrite w_put_adv.
      pose proof (room_adv _ _ [1] R2) as R3. change (len [1]) with 1 in R3.
      split; [unfold w_adv in *; cbn [w_pos] in *; change (len [1]) with 1; lia|]. eapply room_le; [exact R3|lia].
    - split; [lia|]. eapply room_le; [exact R1|lia]. }
  destruct X3 as (P3 & R3). clearbody w3. clear w2.
  assert (Bb : 0 <= b2z sg <= 1) by (destruct sg; cbn; lia).
  set (base := 4 + 2 * b2z sg) in *.
  assert (SLE : forall n, 0 <= n < 2^64 -> len (compact_size n) <= 9).
  { intros n Hn. destruct (Z.ltb_spec n 253); [rewrite compact_one by lia; cbn; lia|]. destruct (size_long n ltac:(lia)) as (b & a & -> & X). rewrite len_cons. lia. }
  rewrite C1, writeVarInt_spec by (try lia; change (len (zeros 10)) with 10; pose proof (SLE (len (s_ins v)) ltac:(lia)); lia).
  cbn [bind fst snd].
  rewrite C2, writeVarInt_spec by (try lia; change (len (zeros 10)) with 10; pose proof (SLE (len (s_outs v)) ltac:(lia)); lia).
  destruct (Z.leb_spec 253 (len (s_ins v))) as [BG|SM].
  - (* too many inputs *)
    destruct (size_long (len (s_ins v)) ltac:(lia)) as (b & a & CE & La & Hb & La2). rewrite CE in *. cbn [app]. rewrite len_cons in *.
    rewrite write_one_hd by first [lia | eapply room_avail; [exact R3|lia]]. cbn [bind].
    set (w4 := w_adv w3 [b]).
    assert (P4 : w_pos w4 = base + 1) by (unfold w4, w_adv; cbn [w_pos]; change (len [b]) with 1; lia).
    pose proof (room_adv w3 _ [b] R3) as R4. change (len [b]) with 1 in R4. fold w4 in R4.
    rewrite (objs_behind _ _ wire_in _ (s_ins v) PI) by lia. cbn [bind fst snd].
    rewrite write_one_behind; auto; try lia.
    + destruct (Z.ltb_spec (len (s_outs v)) 253); [rewrite compact_one by lia; cbn; lia|]. destruct (size_long (len (s_outs v)) ltac:(lia)) as (b' & a' & -> & X). rewrite len_cons. lia.
    + eapply room_avail; [exact R4|]. lia.
  - (* too many outputs *)
    destruct BIG as [BIG|BIG]; [lia|].
    rewrite (compact_one (len (s_ins v))) in * by lia. change (len [len (s_ins v)]) with 1 in *. cbn [app].
    rewrite write_one_hd by first [lia | eapply room_avail; [exact R3|lia]]. cbn [bind].
    set (w4 := w_adv w3 _).
    assert (P4 : w_pos w4 = base + 1) by (unfold w4, w_adv; cbn [w_pos]; change (len [len (s_ins v)]) with 1; lia).
    pose proof (room_adv w3 _ [len (s_ins v)] R3) as R4. change (len [len (s_ins v)]) with 1 in R4. fold w4 in R4.
    pose proof (writes_objs txin_length txin_to_stream wire_in _ _ PI (base + 1) ltac:(lia) ltac:(lia)) as [OI1 OI2].
    assert (E5 : write_objs txin_length txin_to_stream (t_ins t) (base + 1) w4 =
                 Ok (w_adv w4 (flat_map wire_in (s_ins v)), base + 1 + len (flat_map wire_in (s_ins v)))).
    { pose proof (writes_exact _ _ _ w4 OI2 P4 (room_le _ _ (len (flat_map wire_in (s_ins v))) R4 ltac:(lia))) as Q. cbv beta in Q.
      destruct (write_objs txin_length txin_to_stream (t_ins t) (base + 1) w4) as [[w5 b5]|] eqn:Q5; cbn [bind fst] in Q; [|discriminate].
      rewrite (OI1 _ _ _ Q5). injection Q as Q. subst w5. reflexivity. }
    rewrite E5. cbn [bind fst snd].
    set (w5 := w_adv w4 _). set (base5 := base + 1 + len (flat_map wire_in (s_ins v))) in *.
    assert (P5 : w_pos w5 = base5) by (unfold w5, w_adv; cbn [w_pos]; lia).
    pose proof (room_adv w4 _ (flat_map wire_in (s_ins v)) R4) as R5. fold w5 in R5.
    destruct (size_long (len (s_outs v)) ltac:(lia)) as (b & a & CE & La & Hb & La2). rewrite CE in *. cbn [app]. rewrite len_cons in *.
    rewrite write_one_hd by first [lia | eapply room_avail; [exact R5|lia]]. cbn [bind].
    set (w6 := w_adv w5 [b]).
    assert (P6 : w_pos w6 = base5 + 1) by (unfold w6, w_adv; cbn [w_pos]; change (len [b]) with 1; lia).
    pose proof (room_adv w5 _ [b] R5) as R6. change (len [b]) with 1 in R6. fold w6 in R6.
    rewrite (objs_behind _ _ wire_out _ (s_outs v) PO) by lia. cbn [bind].
    assert (A6 : w_available w6 = true) by (eapply room_avail; [exact R6|lia]).
    destruct sg; cbn [bind].
    + rewrite (objs_behind _ _ (fun i => wire_witness (si_wit i)) _ (s_ins v) PW) by lia. cbn [bind]. rewrite write_loop_behind; auto; lia.
    + rewrite write_loop_behind; auto; lia.
Qed.

(** ** Parsing *)
Lemma parse_all_count : forall {E} (parse : E -> list Z -> outcome (E * Z * list Z)) l st l' n r,
  parse_all parse l st = Ok (l', n, r) -> length l' = length l.
Proof.
  intros E parse l. induction l as [|e l IH]; intros st l' n r H; cbn [parse_all] in H; [injection H as <- _ _; auto|].
  destruct (parse e st) as [[[e1 n1] s1]|]; cbn [bind] in H; [|discriminate].
  destruct (parse_all parse l s1) as [[[l2 n2] s2]|] eqn:Q; cbn [bind] in H; [|discriminate]. injection H as <- _ _. cbn. f_equal. eauto.
Qed.
Lemma parse_more_count : forall {E} (parse : E -> list Z -> outcome (E * Z * list Z)) status l st l' n r f,
  parse_more parse status l st = Ok (l', n, r, f) -> length l' = length l.
Proof.
  intros E parse status l. induction l as [|e l IH]; intros st l' n r f H; cbn [parse_more] in H; [injection H as <- _ _ _; auto|].
  destruct (match st with [] => _ | _ :: _ => _ end) as [[[e1 n1] s1]|]; cbn [bind] in H; [|discriminate].
  destruct (pstatus_eqb (status e1) FAILED); [injection H as <- _ _ _; auto|].
  destruct (parse_more parse status l s1) as [[[[l2 n2] s2] f2]|] eqn:Q; cbn [bind] in H; [|discriminate]. injection H as <- _ _ _. cbn. f_equal. eauto.
Qed.
Ltac okinv H := match type of H with
  | bind ?x _ = _ => let Q := fresh "Q" in let p := fresh "p" in destruct x as [p|] eqn:Q; [cbn [bind] in H|discriminate]
  end.
Definition few {E} (l : list E) : Prop := (length l <= 255)%nat.
Lemma repeat_few : forall {E} (e : E) c, byte_ok c -> few (repeat e (Z.to_nat c)).
Proof. intros E e c B. unfold few, byte_ok in *. rewrite repeat_length. lia. Qed.
Lemma few_all : forall {E} (parse : E -> list Z -> outcome (E * Z * list Z)) l st l' n r,
  few l -> parse_all parse l st = Ok (l', n, r) -> few l'.
Proof. unfold few. intros. erewrite parse_all_count; eauto. Qed.
Lemma few_more : forall {E} (parse : E -> list Z -> outcome (E * Z * list Z)) status l st l' n r f,
  few l -> parse_more parse status l st = Ok (l', n, r, f) -> few l'.
Proof. unfold few. intros. erewrite parse_more_count; eauto. Qed.

(** What is left of the stream is a suffix of it. *)
Definition suf (r s : list Z) : Prop := exists p, s = p ++ r.
Definition shrinks {E} (parse : E -> list Z -> outcome (E * Z * list Z)) : Prop := forall e s e' n r, parse e s = Ok (e', n, r) -> suf r s.
Lemma suf_refl : forall s, suf s s. Proof. intros. exists []. auto. Qed.
Lemma suf_trans : forall a b c, suf a b -> suf b c -> suf a c.
Proof. intros a b c [p ->] [q ->]. exists (q ++ p). now rewrite app_assoc. Qed.
Lemma suf_cons : forall c t s, suf (c :: t) s -> suf t s.
Proof. intros c t s [p ->]. exists (p ++ [c]). now rewrite <- app_assoc. Qed.
Lemma suf_ok : forall r s, suf r s -> bytes_ok s -> bytes_ok r.
Proof. intros r s [p ->] H. apply Forall_app in H. tauto. Qed.
Lemma loop_suf : forall {St} limit (f : St -> Z -> Z -> outcome St) s pos st st1 pos1 r,
  read_loop_o limit pos f st s = Ok (st1, pos1, r) -> suf r s.
Proof.
  intros St limit f s. induction s as [|c s IH]; intros pos st st1 pos1 r H; cbn [read_loop_o] in H.
  - injection H as _ _ <-. apply suf_refl.
  - destruct (pos <? limit); [|injection H as _ _ <-; apply suf_refl]. okinv H. apply IH in H. destruct H as [q ->]. exists (c :: q). auto.
Qed.
Lemma all_suf : forall {E} (parse : E -> list Z -> outcome (E * Z * list Z)), shrinks parse -> forall l st l' n r, parse_all parse l st = Ok (l', n, r) -> suf r st.
Proof.
  intros E parse SH l. induction l as [|e l IH]; intros st l' n r H; cbn [parse_all] in H; [injection H as _ _ <-; apply suf_refl|].
  okinv H. destruct p as [[e1 n1] s1]. okinv H. destruct p as [[l2 n2] s2]. injection H as _ _ <-.
  eapply suf_trans; [eapply IH; eauto|]. eapply SH; eauto.
Qed.
Lemma more_suf : forall {E} (parse : E -> list Z -> outcome (E * Z * list Z)) status, shrinks parse -> forall l st l' n r f, parse_more parse status l st = Ok (l', n, r, f) -> suf r st.
Proof.
  intros E parse status SH l. induction l as [|e l IH]; intros st l' n r f H; cbn [parse_more] in H; [injection H as _ _ <- _; apply suf_refl|].
  okinv H. destruct p as [[e1 n1] s1].
  assert (X : suf s1 st).
  { destruct st; [injection Q as _ _ <-; apply suf_refl|]. destruct (status e); try (injection Q as _ _ <-; apply suf_refl). eapply SH; eauto. }
  destruct (pstatus_eqb (status e1) FAILED); [injection H as _ _ <- _; auto|].
  okinv H. destruct p as [[[l2 n2] s2] f2]. injection H as _ _ <- _. eapply suf_trans; [eapply IH; eauto|]. auto.
Qed.
Lemma script_shrinks : shrinks script_parse.
Proof.
  assert (B : forall e s e' n r, script_parse_body e s = Ok (e', n, r) -> suf r s).
  { intros e s e' n r H. unfold script_parse_body in H.
    match type of H with (match ?x with (_, _) => _ end) = _ => destruct x as [[[[arr1 len1] ll1] pos1] st1] eqn:Q1 end.
    assert (S1 : suf st1 s).
    { destruct s as [|b t]; [injection Q1 as _ _ _ _ <-; apply suf_refl|]. destruct (sc_parsed e =? 0); [|injection Q1 as _ _ _ _ <-; apply suf_refl].
      destruct (b <? 253); injection Q1 as _ _ _ _ <-; exists [b]; auto. }
    okinv H. destruct p as [[len2 pos2] st2]. apply loop_suf in Q.
    assert (S2 : suf st2 s) by (eapply suf_trans; eauto).
    destruct ((pos2 =? ll1) && (0 <? len2) && negb (alloc_ok len2)); [injection H as _ _ <-; auto|].
    destruct ((pos2 =? ll1) && negb (lenVarInt len2 =? ll1)); [injection H as _ _ <-; auto|].
    okinv H. destruct p as [[arr3 pos3] st3]. apply loop_suf in Q0. injection H as _ _ <-. eapply suf_trans; eauto. }
  intros e s e' n r H. unfold script_parse in H. destruct (sc_status e); try (eapply B; eauto; fail).
  injection H as _ _ <-. apply suf_refl.
Qed.

Lemma txin_shrinks : shrinks txin_parse.
Proof.
  assert (B : forall e s e' n r, txin_parse_body e s = Ok (e', n, r) -> suf r s).
  { intros e s e' n r H. unfold txin_parse_body in H.
    okinv H. destruct p as [[h1 p1] s1]. okinv H. destruct p as [[i2 p2] s2]. apply loop_suf in Q, Q0.
    okinv H. destruct p as [[c3 n3] s3]. okinv H. destruct p as [[c4 n4] s4].
    assert (S3 : suf s3 s2).
    { destruct s2; [injection Q1 as _ _ <-; apply suf_refl|]. destruct (p2 =? 36); [|injection Q1 as _ _ <-; apply suf_refl]. eapply script_shrinks; eauto. }
    assert (S4 : suf s4 s3).
    { destruct s3; [injection Q2 as _ _ <-; apply suf_refl|]. destruct (sc_status c3); try (injection Q2 as _ _ <-; apply suf_refl). eapply script_shrinks; eauto. }
    assert (X : suf s4 s) by eauto using suf_trans.
    destruct (sc_status c4); try (injection H as _ _ <-; auto; fail); okinv H; destruct p as [[q5 p5] s5]; apply loop_suf in Q3; injection H as _ _ <-; eauto using suf_trans. }
  intros e s e' n r H. unfold txin_parse in H. destruct (ti_status e); try (eapply B; eauto; fail). injection H as _ _ <-. apply suf_refl.
Qed.
Lemma txout_shrinks : shrinks txout_parse.
Proof.
  assert (B : forall e s e' n r, txout_parse_body e s = Ok (e', n, r) -> suf r s).
  { intros e s e' n r H. unfold txout_parse_body in H.
    okinv H. destruct p as [[h1 p1] s1]. apply loop_suf in Q.
    okinv H. destruct p as [[c3 n3] s3]. okinv H. destruct p as [[c4 n4] s4].
    assert (S3 : suf s3 s1).
    { destruct s1; [injection Q0 as _ _ <-; apply suf_refl|]. destruct (p1 =? 8); [|injection Q0 as _ _ <-; apply suf_refl]. eapply script_shrinks; eauto. }
    assert (S4 : suf s4 s3).
    { destruct s3; [injection Q1 as _ _ <-; apply suf_refl|]. destruct (sc_status c3); try (injection Q1 as _ _ <-; apply suf_refl). eapply script_shrinks; eauto. }
    injection H as _ _ <-. eauto using suf_trans. }
  intros e s e' n r H. unfold txout_parse in H. destruct (to_status e); try (eapply B; eauto; fail). injection H as _ _ <-. apply suf_refl.
Qed.

Lemma count_few : forall ins sf pos st ins' sf' pos' st' b, few ins -> bytes_ok st ->
  tx_parse_count ins sf pos st = Ok (ins', sf', pos', st', b) -> few ins' /\ suf st' st.
Proof.
  intros ins sf pos st ins' sf' pos' st' b F B H. unfold tx_parse_count in H.
  okinv H. destruct p as [[[i1 f1] p1] s1].
  assert (X1 : few i1 /\ suf s1 st).
  { destruct st as [|c t]; [injection Q as <- _ _ <-; split; auto using suf_refl|].
    assert (BC : byte_ok c) by (inversion B; auto).
    destruct (pos =? 4); [|injection Q as <- _ _ <-; split; auto using suf_refl].
    destruct (c =? 0); [injection Q as <- _ _ <-; split; auto; exists [c]; auto|].
    okinv Q. destruct p as [[l n] t1]. injection Q as <- _ _ <-. split.
    - eapply few_all; [|eauto]. apply repeat_few; auto.
    - apply all_suf in Q0; [|apply txin_shrinks]. destruct Q0 as [z ->]. exists (c :: z). auto. }
  destruct X1 as (F1 & S1).
  match type of H with (match ?x with (_, _) => _ end) = _ => destruct x as [[p2 s2] bad] eqn:Q2 end.
  assert (S2 : suf s2 st).
  { destruct s1 as [|c t]; [injection Q2 as _ <- _; auto|]. destruct ((0 <? f1) && (p1 =? 5)); injection Q2 as _ <- _; auto. eapply suf_cons; eauto. }
  destruct bad; [injection H as <- _ _ <- _; auto|].
  okinv H. destruct p as [[i3 p3] s3]. injection H as <- _ _ <- _.
  destruct s2 as [|c t]; [injection Q0 as <- _ <-; auto|]. destruct ((0 <? f1) && (p2 =? 6)); [|injection Q0 as <- _ <-; auto].
  okinv Q0. destruct p as [[l n] t1]. injection Q0 as <- _ <-.
  assert (BC : byte_ok c) by (pose proof (suf_ok _ _ S2 B) as Y; inversion Y; auto).
  split; [eapply few_all; [|eauto]; apply repeat_few; auto|].
  apply all_suf in Q1; [|apply txin_shrinks]. eapply suf_trans; [exact Q1|]. eapply suf_cons; eauto.
Qed.
Lemma tx_few : forall t st t' n r, t_status t = DONE -> bytes_ok st -> tx_parse t st = Ok (t', n, r) ->
  (length (t_ins t') <= 255)%nat /\ (length (t_outs t') <= 255)%nat.
Proof.
  intros t st t' n r D B H. unfold tx_parse in H. rewrite D in H. unfold tx_parse_body in H. cbn [t_parsed t_version t_ins t_outs t_segflag t_lock] in H.
  change (few (t_ins t') /\ few (t_outs t')).
  assert (N0 : few (@nil txin) /\ few (@nil txout)) by (unfold few; cbn; lia). destruct N0 as (N1 & N2).
  okinv H. destruct p as [[ver p1] s1]. apply loop_suf in Q.
  okinv H. destruct p as [[[[i2 sf] p2] s2] b2]. apply count_few in Q0 as (F2 & S2); auto; [|eapply suf_ok; eauto].
  destruct b2; [injection H as <- _ _; cbn; auto|].
  okinv H. destruct p as [[[i3 n3] s3] b3]. assert (F3 := few_more _ _ _ _ _ _ _ _ F2 Q0). apply more_suf in Q0; [|apply txin_shrinks].
  destruct b3; [injection H as <- _ _; cbn; auto|].
  assert (S3 : suf s3 st) by eauto using suf_trans.
  okinv H. destruct p as [[o4 p4] s4].
  assert (F4 : few o4).
  { destruct s3 as [|c s']; [injection Q1 as <- _ _; auto|]. match type of Q1 with (if ?x then _ else _) = _ => destruct x end; [|injection Q1 as <- _ _; auto].
    okinv Q1. destruct p as [[l k] z]. injection Q1 as <- _ _. eapply few_all; [|eauto]. apply repeat_few.
    pose proof (suf_ok _ _ S3 B) as Y. inversion Y; auto. }
  okinv H. destruct p as [[[o5 n5] s5] b5]. assert (F5 := few_more _ _ _ _ _ _ _ _ F4 Q2).
  destruct b5; [injection H as <- _ _; cbn; auto|].
  okinv H. destruct p as [[i6 p6] s6].
  assert (F6 : few i6).
  { match type of Q3 with (if ?x then _ else _) = _ => destruct x end; [|injection Q3 as <- _ _; auto].
    okinv Q3. destruct p as [[l k] z]. injection Q3 as <- _ _. eapply few_all; eauto. }
  okinv H. destruct p as [[[i7 p7] s7] b7].
  assert (F7 : few i7).
  { match type of Q4 with (if ?x then _ else _) = _ => destruct x end; [|injection Q4 as <- _ _ _; auto].
    okinv Q4. destruct p as [[[l k] z] f]. injection Q4 as <- _ _ _. eapply few_more; eauto. }
  destruct b7; [injection H as <- _ _; cbn; auto|].
  okinv H. destruct p as [[lk p8] s8]. injection H as <- _ _. cbn [t_ins t_outs]. auto.
Qed.
Lemma tx_many_lost : forall t v rest t' n r, t_status t = DONE -> bytes_ok (wire_tx v ++ rest) ->
  256 <= len (s_ins v) \/ 256 <= len (s_outs v) ->
  tx_parse t (wire_tx v ++ rest) = Ok (t', n, r) -> ~ tx_holds t' v.
Proof.
  intros t v rest t' n r D B BIG H HH. apply tx_few in H as (A & A2); auto. apply holds_counts in HH as (C1 & C2). unfold len in *. lia.
Qed.

(** ** A chunk that ends where the witnesses begin *)
Lemma wit_empty : forall i, txin_parse_wit (pin0 i) [] = Ok (parsed_in i (mkWitness [] 0 0 0 0 0 0 0 FAILED 0), 0, []).
Proof. reflexivity. Qed.
Lemma wits_empty : forall l, parse_all txin_parse_wit (map pin0 l) [] =
  Ok (map (fun i => parsed_in i (mkWitness [] 0 0 0 0 0 0 0 FAILED 0)) l, 0, []).
Proof. induction l as [|i l IH]; cbn [map parse_all]; auto. rewrite wit_empty. cbn [bind]. rewrite IH. reflexivity. Qed.

(** The part of a segwit transaction in front of the witnesses. *)
Lemma tx_cut : forall t v, t_status t = DONE -> tx_ok v -> 1 <= len (s_ins v) < 253 -> len (s_outs v) < 253 ->
  exists t', tx_parse t (before_witness v) = Ok (t', len (before_witness v), []) /\ t_status t' = FAILED.
Proof.
  intros t v D (V & L & FI & FO) NI NO. pose proof (len_nonneg _ (s_outs v)) as NO0.
  unfold tx_parse. rewrite D. unfold tx_parse_body. cbn [t_parsed t_version t_ins t_outs t_lock t_segflag].
  assert (RI : Z.to_nat (len (s_ins v)) = length (s_ins v)) by (unfold len; lia).
  assert (RO : Z.to_nat (len (s_outs v)) = length (s_outs v)) by (unfold len; lia).
  unfold before_witness, wire_list. rewrite !len_app, !len_le_bytes. rewrite !compact_one by lia. cbn [app].
  change (read_loop_o 4 0 (acc32 0) 0) with (read_loop_o (0 + 4) 0 (acc32 0) 0).
  rewrite (acc32_le4 0) by auto. change (0 + 4) with 4. cbn [bind].
  unfold tx_parse_count. change (4 =? 4) with true. change (0 =? 0) with true. cbv iota. cbn [bind].
  change (4 + 1) with 5. change (0 <? 1) with true. change (5 =? 5) with true. cbn [andb]. cbv iota.
  change (1 =? 1) with true. cbn [negb]. cbv iota. change (5 + 1) with 6. change (6 =? 6) with true. cbv iota.
  rewrite RI, parse_ins by auto. cbn [bind].
  rewrite parse_more_done by (apply Forall_map'; reflexivity). cbn [bind].
  rewrite (sum_ins (fun _ => witness_new) (s_ins v) FI : zsum (map txin_length (map pin0 (s_ins v))) = _).
  set (A := len (flat_map wire_in (s_ins v))). rewrite Z.add_0_r.
  replace (6 + 1 + A =? 5 + 2 * 1 + A) with true by (symmetry; apply Z.eqb_eq; lia).
  pose proof (parse_outs (s_outs v) [] FO) as PO. rewrite app_nil_r in PO. rewrite RO, PO. cbn [bind].
  rewrite parse_more_done by (apply Forall_map'; reflexivity). cbn [bind].
  rewrite sum_outs by auto. set (O := len (flat_map wire_out (s_outs v))). rewrite Z.add_0_r.
  replace (6 + 1 + A + 1 + O =? 5 + 2 * 1 + A + 1 + O) with true by (symmetry; apply Z.eqb_eq; lia).
  change (0 <? 1) with true. cbn [andb]. rewrite wits_empty. cbn [bind]. cbv iota.
  destruct (s_ins v) as [|i l]; [cbn in NI; lia|]. cbn [map parse_more txin_wit_status parsed_in ti_wit wi_status bind pstatus_eqb].
  match goal with |- exists _, Ok (?x, ?n, _) = _ /\ _ => exists x; replace n with (Z.of_nat 4 + (len [0; 1] + (len [len (i :: l)] + len (flat_map wire_in (i :: l)) + (len [len (s_outs v)] + O)))) end.
  - split; reflexivity.
  - rewrite !len_cons, !len_nil. subst A. lia.
Qed.
