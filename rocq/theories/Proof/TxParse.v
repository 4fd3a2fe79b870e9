(** Transactions: parsing the wire form. *)
From Coq Require Import Lia.
From Verif Require Import Base.Bytes Base.BytesFacts Model.Conversion Model.Stream Model.Script Model.Tx
  Spec.Codecs Spec.Wire Spec.Objects Proof.IntVarint Proof.StreamFacts Proof.ScriptFacts Proof.WitnessFacts Proof.TxIo Proof.IoProps Proof.TxSer.
Open Scope Z_scope.

Lemma parse_all_wire : forall {E X} (parse : E -> list Z -> outcome (E * Z * list Z)) (wire : X -> list Z) (res : X -> E) l xs rest,
  Forall2 (fun e x => forall rest, parse e (wire x ++ rest) = Ok (res x, len (wire x), rest)) l xs ->
  parse_all parse l (flat_map wire xs ++ rest) = Ok (map res xs, len (flat_map wire xs), rest).
Proof.
  intros E X parse wire res l xs rest F. induction F as [|e x l xs P F IH]; cbn [parse_all flat_map map app]; auto.
  rewrite <- app_assoc, P. cbn [bind]. rewrite IH. cbn [bind]. rewrite len_app. reflexivity.
Qed.
Lemma parse_more_done : forall {E} (parse : E -> list Z -> outcome (E * Z * list Z)) status l st,
  Forall (fun e => status e = DONE) l -> parse_more parse status l st = Ok (l, 0, st, false).
Proof.
  intros E parse status l st F. induction F as [|e l D F IH]; cbn [parse_more]; auto.
  rewrite D. destruct st; cbn [bind]; rewrite D; cbn [pstatus_eqb]; rewrite IH; reflexivity.
Qed.
Lemma F2_repeat : forall {A B} (P : A -> B -> Prop) a l, Forall (P a) l -> Forall2 P (repeat a (length l)) l.
Proof. intros A B P a l F. induction F; constructor; auto. Qed.
Lemma F2_map : forall {A B} (P : A -> B -> Prop) (f : B -> A) l, Forall (fun b => P (f b) b) l -> Forall2 P (map f l) l.
Proof. intros A B P f l F. induction F; constructor; auto. Qed.
Lemma Forall_map' : forall {A B} (P : A -> Prop) (f : B -> A) l, (forall b, P (f b)) -> Forall P (map f l).
Proof. intros A B P f l H. induction l; constructor; auto. Qed.

(** What the parser makes of an input, before and after its witness. *)
Definition pin0 (i : s_txin) : txin := parsed_in i witness_new.
Definition pin1 (i : s_txin) : txin := parsed_in i (parsed_witness (si_wit i)).

Lemma parse_ins : forall l rest, Forall in_ok l ->
  parse_all txin_parse (repeat txin_new (length l)) (flat_map wire_in l ++ rest) = Ok (map pin0 l, len (flat_map wire_in l), rest).
Proof.
  intros l rest F. apply parse_all_wire. apply (F2_repeat (fun e x => forall rest, txin_parse e (wire_in x ++ rest) = Ok (pin0 x, len (wire_in x), rest))). eapply Forall_impl; [|exact F].
  intros i OK r. unfold pin0. apply txin_parse_wire; auto.
Qed.
Lemma parse_outs : forall l rest, Forall out_ok l ->
  parse_all txout_parse (repeat txout_new (length l)) (flat_map wire_out l ++ rest) = Ok (map parsed_out l, len (flat_map wire_out l), rest).
Proof.
  intros l rest F. apply parse_all_wire. apply (F2_repeat (fun e x => forall rest, txout_parse e (wire_out x ++ rest) = Ok (parsed_out x, len (wire_out x), rest))). eapply Forall_impl; [|exact F].
  intros o OK r. apply txout_parse_wire; auto.
Qed.
Lemma parse_wits : forall l rest, Forall wit_ok l ->
  parse_all txin_parse_wit (map pin0 l) (flat_map (fun i => wire_witness (si_wit i)) l ++ rest) =
    Ok (map pin1 l, len (flat_map (fun i => wire_witness (si_wit i)) l), rest).
Proof.
  intros l rest F. apply parse_all_wire.
  apply (F2_map (fun e x => forall rest, txin_parse_wit e (wire_witness (si_wit x) ++ rest) = Ok (pin1 x, len (wire_witness (si_wit x)), rest))).
  eapply Forall_impl; [|exact F].
  intros i (N & B & S) r. unfold txin_parse_wit, pin0. cbn [parsed_in ti_wit].
  rewrite witness_parse_wire by auto. reflexivity.
Qed.

Lemma pin_length : forall i w, in_ok i -> txin_length (parsed_in i w) = len (wire_in i).
Proof.
  intros i w (P1 & P2 & P3 & P4 & P5 & P6 & _). unfold txin_length. cbn [parsed_in ti_script].
  rewrite parsed_script_length, len_wire_in by auto. lia.
Qed.
Lemma pout_length : forall o, out_ok o -> txout_length (parsed_out o) = len (wire_out o).
Proof.
  intros o (P1 & P2 & P3). unfold txout_length. cbn [parsed_out to_script]. rewrite parsed_script_length, len_wire_out by auto. lia.
Qed.
Lemma pwit_length : forall els, len els < 253 -> witness_length (parsed_witness els) = len (wire_witness els).
Proof.
  intros els H. pose proof (len_nonneg _ els). unfold witness_length, wire_witness. cbn [parsed_witness wi_len wi_num].
  rewrite lenVarInt_spec, len_app by lia. lia.
Qed.
Lemma sum_ins : forall (w : s_txin -> witness) l, Forall in_ok l ->
  zsum (map txin_length (map (fun i => parsed_in i (w i)) l)) = len (flat_map wire_in l).
Proof.
  intros w l F. apply flat_len. apply (F2_map (fun e x => txin_length e = len (wire_in x)) (fun i => parsed_in i (w i))).
  eapply Forall_impl; [|exact F]. intros. apply pin_length; auto.
Qed.
Lemma sum_outs : forall l, Forall out_ok l -> zsum (map txout_length (map parsed_out l)) = len (flat_map wire_out l).
Proof.
  intros l F. apply flat_len. apply (F2_map (fun e x => txout_length e = len (wire_out x)) parsed_out).
  eapply Forall_impl; [|exact F]. intros. apply pout_length; auto.
Qed.
Lemma sum_wits : forall l, Forall wit_ok l ->
  zsum (map (fun i => witness_length (ti_wit i)) (map pin1 l)) = len (flat_map (fun i => wire_witness (si_wit i)) l).
Proof.
  intros l F. apply flat_len. apply (F2_map (fun e x => witness_length (ti_wit e) = len (wire_witness (si_wit x))) pin1).
  eapply Forall_impl; [|exact F]. intros i (N & _). cbn [pin1 parsed_in ti_wit]. apply pwit_length; auto.
Qed.

Definition parsed_tx (v : s_tx) : tx :=
  let sg := has_witness v in
  mkTx (s_version v) (map (if sg then pin1 else pin0) (s_ins v)) (map parsed_out (s_outs v)) (s_lock v) (b2z sg) DONE (len (wire_tx v)).

Lemma done_eq : forall v a b c d st p q n (rest : list Z), p = q -> n = q ->
  Ok (mkTx v a b c d st p, n, rest) = Ok (mkTx v a b c d st q, q, rest).
Proof. intros; subst; reflexivity. Qed.
Lemma tx_parse_wire : forall t v rest, t_status t = DONE -> tx_ok v -> Forall wit_ok (s_ins v) ->
  1 <= len (s_ins v) < 253 -> len (s_outs v) < 253 ->
  tx_parse t (wire_tx v ++ rest) = Ok (parsed_tx v, len (wire_tx v), rest).
Proof.
  intros t v rest D (V & L & FI & FO) FW NI NO. pose proof (len_nonneg _ (s_outs v)) as NO0.
  unfold tx_parse. rewrite D. unfold tx_parse_body. cbn [t_parsed t_version t_ins t_outs t_lock t_segflag].
  assert (RI : Z.to_nat (len (s_ins v)) = length (s_ins v)) by (unfold len; lia).
  assert (RO : Z.to_nat (len (s_outs v)) = length (s_outs v)) by (unfold len; lia).
  unfold parsed_tx, wire_tx. destruct (has_witness v); cbn [b2z].
  - unfold wire_segwit, wire_list. rewrite <- !app_assoc. rewrite !len_app, !len_le_bytes.
    rewrite !compact_one by lia. cbn [app].
    change (read_loop_o 4 0 (acc32 0) 0) with (read_loop_o (0 + 4) 0 (acc32 0) 0).
    rewrite (acc32_le4 0) by auto. change (0 + 4) with 4. cbn [bind].
    unfold tx_parse_count. change (4 =? 4) with true. change (0 =? 0) with true. cbv iota. cbn [bind].
    change (4 + 1) with 5. change (0 <? 1) with true. change (5 =? 5) with true. cbn [andb]. cbv iota.
    change (1 =? 1) with true. cbn [negb]. cbv iota. change (5 + 1) with 6. change (6 =? 6) with true. cbv iota.
    rewrite RI, parse_ins by auto. cbn [bind].
    rewrite parse_more_done by (apply Forall_map'; reflexivity). cbn [bind].
    rewrite (sum_ins (fun _ => witness_new) (s_ins v) FI : zsum (map txin_length (map pin0 (s_ins v))) = _).
    set (A := len (flat_map wire_in (s_ins v))). rewrite Z.add_0_r.
    replace (6 + 1 + A =? 5 + 2 * 1 + A) with true by (symmetry; apply Z.eqb_eq; lia).
    rewrite RO, parse_outs by auto. cbn [bind].
    rewrite parse_more_done by (apply Forall_map'; reflexivity). cbn [bind].
    rewrite sum_outs by auto. set (O := len (flat_map wire_out (s_outs v))). rewrite Z.add_0_r.
    replace (6 + 1 + A + 1 + O =? 5 + 2 * 1 + A + 1 + O) with true by (symmetry; apply Z.eqb_eq; lia).
    rewrite parse_wits by auto. change (0 <? 1) with true. cbn [bind andb]. cbv iota. cbn [bind].
    rewrite parse_more_done by (apply Forall_map'; reflexivity). cbn [bind].
    rewrite sum_wits by auto. set (W := len (flat_map (fun i => wire_witness (si_wit i)) (s_ins v))). rewrite Z.add_0_r.
    replace (6 + 1 + A + 1 + O + W) with (5 + 2 * 1 + A + 1 + O + W) by lia.
    rewrite acc32_le4 by auto. cbn [bind]. rewrite Z.eqb_refl. cbn [andb].
    assert (TC : tx_completed 1 (map pin1 (s_ins v)) (map parsed_out (s_outs v)) = true).
    { unfold tx_completed. apply andb_true_intro. split; apply forallb_forall; intros x I; apply in_map_iff in I as (y & <- & _); reflexivity. }
    rewrite TC. rewrite !len_cons, !len_nil. fold A O W. apply done_eq; lia.
  - unfold wire_legacy, wire_list. rewrite <- !app_assoc. rewrite !len_app, !len_le_bytes.
    rewrite !compact_one by lia. cbn [app].
    change (read_loop_o 4 0 (acc32 0) 0) with (read_loop_o (0 + 4) 0 (acc32 0) 0).
    rewrite (acc32_le4 0) by auto. change (0 + 4) with 4. cbn [bind].
    unfold tx_parse_count. change (4 =? 4) with true. cbv iota.
    destruct (Z.eqb_spec (len (s_ins v)) 0); [lia|].
    rewrite RI, parse_ins by auto. cbn [bind]. change (0 <? 0) with false. cbn [andb].
    set (A := len (flat_map wire_in (s_ins v))).
    assert (X : forall (T U : Type) (l : list T) (u : U), (match l with [] => u | _ :: _ => u end) = u) by (intros ? ? []; reflexivity).
    cbn [bind]. cbv iota.
    rewrite parse_more_done by (apply Forall_map'; reflexivity). cbn [bind].
    rewrite (sum_ins (fun _ => witness_new) (s_ins v) FI : zsum (map txin_length (map pin0 (s_ins v))) = _). fold A. rewrite Z.add_0_r.
    replace (4 + 1 + A =? 5 + 2 * 0 + A) with true by (symmetry; apply Z.eqb_eq; lia).
    rewrite RO, parse_outs by auto. cbn [bind].
    rewrite parse_more_done by (apply Forall_map'; reflexivity). cbn [bind].
    rewrite sum_outs by auto. set (O := len (flat_map wire_out (s_outs v))).
    change (0 <? 0) with false. cbn [andb bind]. cbv iota. cbn [bind]. rewrite ?Z.add_0_r.
    replace (4 + 1 + A + 1 + O) with (5 + A + 1 + O) by lia.
    rewrite acc32_le4 by auto. cbn [bind]. rewrite Z.eqb_refl. cbn [andb].
    assert (TC : tx_completed 0 (map pin0 (s_ins v)) (map parsed_out (s_outs v)) = true).
    { unfold tx_completed. apply andb_true_intro. split; apply forallb_forall; intros x I; apply in_map_iff in I as (y & <- & _); reflexivity. }
    rewrite TC. rewrite !len_cons, !len_nil. fold A O. apply done_eq; lia.
Qed.

Lemma no_witness_nil : forall v i, has_witness v = false -> In i (s_ins v) -> si_wit i = [].
Proof.
  intros v i H I. unfold has_witness in H. destruct (si_wit i) as [|e l] eqn:E; auto.
  assert (X : existsb (fun i => negb (len (si_wit i) =? 0)) (s_ins v) = true).
  { apply existsb_exists. exists i. split; auto. rewrite E, len_cons. pose proof (len_nonneg _ l).
    destruct (Z.eqb_spec (1 + len l) 0); auto. lia. }
  congruence.
Qed.
Lemma parsed_script_holds : forall bs, bytes_ok bs -> len bs < 2^31 -> script_holds (parsed_script bs) bs.
Proof. intros. unfold script_holds. auto. Qed.
Lemma parsed_witness_holds : forall els, Forall bytes_ok els -> len (flat_map wire_bytes els) < 2^31 ->
  witness_holds (parsed_witness els) els.
Proof. intros. unfold witness_holds. auto. Qed.
Lemma parsed_tx_holds : forall v, tx_ok v -> Forall wit_ok (s_ins v) -> tx_holds (parsed_tx v) v.
Proof.
  intros v (V & L & FI & FO) FW. unfold tx_holds, parsed_tx. cbn [t_version t_lock t_ins t_outs].
  split; [reflexivity|]. split; [auto|]. split; [reflexivity|]. split; [auto|].
  rewrite Forall_forall in FI, FW, FO. split.
  - destruct (has_witness v) eqn:HW; apply F2_map; rewrite Forall_forall; intros i I;
      destruct (FI i I) as (P1 & P2 & P3 & P4 & P5 & P6 & P7); destruct (FW i I) as (N & B & S);
      unfold txin_holds, pin1, pin0; cbn [parsed_in ti_hash ti_index ti_script ti_seq ti_wit];
      pose proof (parsed_script_holds _ P5 P6); pose proof (parsed_witness_holds _ B S) as WH.
    + tauto.
    + rewrite (no_witness_nil v i HW I). assert (witness_holds witness_new []) by (unfold witness_holds; cbn; repeat split; auto; lia). tauto.
  - apply F2_map; rewrite Forall_forall; intros o I. destruct (FO o I) as (P1 & P2 & P3).
    unfold txout_holds; cbn [parsed_out to_amount to_script]. pose proof (parsed_script_holds _ P2 P3). tauto.
Qed.
(** Any number of bytes may follow; the object's earlier content does not matter. *)
Lemma tx_round : forall t v rest, t_status t = DONE -> tx_ok v -> Forall wit_ok (s_ins v) ->
  1 <= len (s_ins v) < 253 -> len (s_outs v) < 253 ->
  exists t', tx_parse t (wire_tx v ++ rest) = Ok (t', len (wire_tx v), rest) /\ t_status t' = DONE /\ tx_holds t' v.
Proof. intros t v rest D K W NI NO. exists (parsed_tx v). split; [apply tx_parse_wire; auto|]. split; [reflexivity|apply parsed_tx_holds; auto]. Qed.
