(** A whole PSBT: the magic, the transaction, and the entries. *)
From Coq Require Import Lia.
From Verif Require Import Base.Bytes Base.BytesFacts Spec.Codecs Spec.Wire Spec.Objects Spec.PSBT Model.Conversion Model.Stream Model.Script Model.Tx Model.PSBT
  Proof.IntVarint Proof.StreamFacts Proof.ScriptFacts Proof.TxParse Proof.TxIo Proof.PsbtFacts.
Open Scope Z_scope.

Lemma ser_parsed : forall bs, bytes_ok bs -> len bs < 2^31 -> ser_script (parsed_script bs) = Ok (wire_bytes bs).
Proof.
  intros bs B L. unfold ser_script.
  pose proof (script_serializes (parsed_script bs)) as S. cbn [parsed_script sc_arr] in S.
  specialize (S ltac:(repeat split; auto)).
  rewrite parsed_script_length by auto. unfold len at 1. rewrite Nat2Z.id.
  rewrite (serialize_full _ _ _ S eq_refl). reflexivity.
Qed.
Lemma varint_plain : forall n, 0 <= n < 2^31 -> plain_length n -> lenVarInt (n + len (compact_size n)) = len (compact_size n).
Proof.
  intros n H [P1 P2]. rewrite <- (lenVarInt_spec n) by lia. unfold lenVarInt.
  rewrite !Z.shiftr_div_pow2 by lia.
  destruct (Z.ltb_spec n 253).
  - destruct (Z.ltb_spec (n + 1) 253); [reflexivity|lia].
  - destruct (Z.eqb_spec (n / 2^16) 0) as [E|E].
    + destruct (Z.ltb_spec (n + 3) 253); [lia|].
      destruct (Z.eqb_spec ((n + 3) / 2^16) 0) as [F|F]; [reflexivity|]. exfalso. apply F. clear -E P2 H.
      assert (n < 65536) by dlia. apply Z.div_small. lia.
    + assert (65536 <= n) by (clear -E H; assert (~ n < 65536); [intros K; apply E, Z.div_small; lia|lia]).
      rewrite (Z.div_small n (2^32)) by lia. change (0 =? 0) with true. cbv iota.
      destruct (Z.ltb_spec (n + 5) 253); [lia|].
      destruct (Z.eqb_spec ((n + 5) / 2^16) 0) as [F|F]; [exfalso; clear - F H1; dlia|].
      rewrite (Z.div_small (n + 5) (2^32)) by lia. reflexivity.
Qed.
Lemma body_plain : forall bs, bytes_ok bs -> len bs < 2^31 -> plain_length (len bs) ->
  body_at (parsed_script bs) = len (compact_size (len bs)) /\
  skipn (Z.to_nat (body_at (parsed_script bs))) (wire_bytes bs) = bs.
Proof.
  intros bs B L P. pose proof (len_nonneg _ bs). unfold body_at. rewrite parsed_script_length, len_wire_bytes by auto.
  rewrite Z.add_comm, varint_plain by (auto; lia). split; auto. unfold wire_bytes. unfold len at 1. rewrite Nat2Z.id.
  apply skipn_app_len. reflexivity.
Qed.

Lemma magic_ok : forall rest, magic_loop 0 (psbt_magic ++ rest) = Ok (5, rest, true).
Proof. intros rest. destruct rest; reflexivity. Qed.

(** An object that a parse may start on. *)
Definition ready (p : psbt) : Prop := ps_status p = DONE /\ settled2 p /\ psbt_release p = Ok tt.
Lemma ready_new : ready psbt_new.
Proof. repeat split; reflexivity. Qed.

Definition fresh_metas (t : tx) : metas := (Some (repeat im_new (length (t_ins t))), Some (repeat om_new (length (t_outs t)))).
Definition sections_of (t : tx) : Z := 1 + len (t_ins t) + len (t_outs t).

Section Whole.
Variable dsha : list Z -> list Z.
Variable garbage : list Z.
Notation parse := (psbt_parse dsha garbage).
Notation loop := (psbt_loop dsha garbage).

(** The state in which the loop over the sections starts. *)
Definition looping (tb : list Z) (t : tx) : psbt :=
  mkPsbt (parsed_script [0]) (parsed_script tb) 0 (7 + len (wire_bytes tb)) t (fst (fresh_metas t)) (snd (fresh_metas t)) INCOMPLETE 0.

Lemma tx_parse_done : forall t t' st, t_status t = DONE -> t_status t' = DONE -> tx_parse t st = tx_parse t' st.
Proof. intros t t' st H H'. unfold tx_parse. rewrite H, H'. reflexivity. Qed.
Lemma settled_assign : forall s, settled s -> settled (script_assign s script_new).
Proof. intros s [_ H]. destruct (assign_new s) as (A & B). cbn zeta in *. split; auto. Qed.

Lemma starts : forall p tb rest t n r, ready p -> bytes_ok tb -> len tb < 2^31 -> plain_length (len tb) ->
  tx_parse tx_new tb = Ok (t, n, r) ->
  match t_status t with
  | DONE => parse p (psbt_magic ++ wire_pair ([0], tb) ++ rest) =
      let! r6 := loop (length rest) (u8 (sections_of t)) (looping tb t) (5 + len (wire_pair ([0], tb))) rest in
      let '(p6, n, st6, good) := r6 in
      if negb good then Ok (ps_end p6 FAILED n, n, st6)
      else if (ps_section p6 =? u8 (sections_of t)) && (0 <? u8 (sections_of t)) then
        Ok (ps_end (ps_set_value (ps_set_key p6 (script_assign (ps_key p6) script_new)) (script_assign (ps_value p6) script_new)) DONE n, n, st6)
      else Ok (ps_end p6 INCOMPLETE n, n, st6)
  | _ => exists p' n', parse p (psbt_magic ++ wire_pair ([0], tb) ++ rest) = Ok (p', n', rest) /\ ps_status p' = FAILED /\ ps_tx p' = t /\
      ps_ins p' = (if 0 <? len (t_ins (ps_tx p)) then None else ps_ins p) /\ ps_outs p' = (if 0 <? len (t_outs (ps_tx p)) then None else ps_outs p)
  end.
Proof.
  intros p tb rest t n r (D & [SK SV] & R) B L PL T. unfold psbt_parse. rewrite D. unfold psbt_start. rewrite R. rewrite !bind_ok. cbv zeta.
  set (q := mkPsbt _ _ _ _ _ _ _ _ _).
  assert (E1 : script_parse (ps_key p) (wire_pair ([0], tb) ++ rest) = Ok (parsed_script [0], 2, wire_bytes tb ++ rest)).
  { unfold wire_pair. rewrite <- app_assoc. cbn [fst snd].
    apply script_parse_wire; try apply SK; [|reflexivity]. constructor; [unfold byte_ok; lia|constructor]. }
  assert (E2 : script_parse (ps_value p) (wire_bytes tb ++ rest) = Ok (parsed_script tb, len (wire_bytes tb), rest)) by (apply script_parse_wire; auto; apply SV).
  unfold psbt_body. change (ps_parsed q) with 0. change (ps_key q) with (ps_key p). change (ps_value q) with (ps_value p).
  change (ps_last q) with 5. rewrite magic_ok, bind_ok. cbv beta iota zeta. cbn [negb]. change (5 =? 5) with true. cbn [parse_if].
  step E1. cbv iota. step E2. cbv iota.
  change (is_incomplete (parsed_script [0])) with false. cbn [andb parse_if]. rewrite bind_ok. cbv beta iota zeta.
  change (is_failed (parsed_script [0])) with false. cbv iota.
  change (is_incomplete (parsed_script tb)) with false. cbn [andb parse_if]. rewrite bind_ok. cbv beta iota zeta.
  change (is_failed (parsed_script tb)) with false. cbv iota.
  change (ps_last (ps_set_value (ps_set_key q (parsed_script [0])) (parsed_script tb)) =? 5) with true. rewrite !parsed_done. cbn [andb].
  unfold psbt_global. change (ps_key (ps_set_value (ps_set_key q (parsed_script [0])) (parsed_script tb))) with (parsed_script [0]).
  change (ps_value (ps_set_value (ps_set_key q (parsed_script [0])) (parsed_script tb))) with (parsed_script tb).
  change (ser_script (parsed_script [0])) with (Ok [1; 0]). rewrite bind_ok. cbv beta.
  change (script_length (parsed_script [0]) =? 2) with true. cbv iota.
  change (aget [1; 0] 0) with (Ok 1). change (aget [1; 0] 1) with (Ok 0). rewrite !bind_ok.
  change (negb (1 =? 1) || negb (0 =? 0)) with false. cbv iota.
  rewrite ser_parsed by auto. rewrite bind_ok. cbv beta.
  destruct (body_plain tb B L PL) as [_ ->].
  rewrite (tx_parse_done _ tx_new) by reflexivity. rewrite T. rewrite bind_ok. cbv beta zeta. cbn [fst snd].
  assert (LW : len (wire_pair ([0], tb)) = 2 + len (wire_bytes tb)) by (unfold wire_pair; rewrite len_app; reflexivity).
  destruct (t_status t) eqn:ST.
  2,3: rewrite bind_ok; cbv beta iota zeta; cbn [negb]; do 2 eexists; split; [reflexivity|]; repeat split.
  rewrite bind_ok. cbv beta iota zeta. cbn [negb].
  set (q5 := ps_advance _ _).
  assert (Q : q5 = looping tb t).
  { unfold q5, looping, ps_advance, ps_set_metas, fresh_metas. cbn [ps_key ps_value ps_section ps_last ps_tx ps_ins ps_outs ps_status ps_parsed ps_set_key ps_set_value q fst snd].
    rewrite (parsed_script_length tb) by auto.
    f_equal. change (script_length (parsed_script [0])) with 2. lia. }
  assert (SN : sections_number q5 = u8 (sections_of t)).
  { rewrite Q. unfold sections_number. cbn [looping ps_last ps_tx]. pose proof (len_nonneg _ (wire_bytes tb)).
    destruct (Z.ltb_spec 5 (7 + len (wire_bytes tb))); [reflexivity|lia]. }
  rewrite SN, Q, LW. replace (5 - 0 + 2 + len (wire_bytes tb) + 0 + 0) with (5 + (2 + len (wire_bytes tb))) by lia. reflexivity.
Qed.

Lemma global_ignored : forall t m l, run_pairs dsha garbage t m 0 l = Ok (m, true).
Proof. induction l as [|[k v] l IH]; [reflexivity|]. cbn [run_pairs]. unfold add_meta. cbn [Z.eqb orb bind fst snd]. change (0 <? 0) with false. cbv iota. exact IH. Qed.

Definition whole (p : psbt) (tb : list Z) (t : tx) (global : list (list Z * list Z)) (maps : list (list (list Z * list Z))) (rest : list Z) : Prop :=
  match run_maps dsha garbage t (fresh_metas t) 1 maps with
  | UB => parse p (wire_psbt tb global maps ++ rest) = UB
  | Ok (m, false) => exists p' n' st', parse p (wire_psbt tb global maps ++ rest) = Ok (p', n', st') /\ ps_status p' = FAILED
  | Ok (m, true) => exists p', parse p (wire_psbt tb global maps ++ rest) = Ok (p', len (wire_psbt tb global maps), rest) /\
      ps_status p' = DONE /\ ps_tx p' = t /\ ps_metas p' = m /\ settled2 p'
  end.
Lemma psbt_whole : forall p tb t n r global maps rest, ready p -> bytes_ok tb -> len tb < 2^31 -> plain_length (len tb) ->
  tx_parse tx_new tb = Ok (t, n, r) -> t_status t = DONE -> Forall pair_ok global -> Forall (Forall pair_ok) maps ->
  1 + len maps = sections_of t -> sections_of t <= 255 -> whole p tb t global maps rest.
Proof.
  intros p tb t n r global maps rest RP B L PL T ST PG PM EM LE. pose proof (len_nonneg _ maps) as LN.
  pose proof (starts p tb (flat_map wire_map (global :: maps) ++ rest) t n r RP B L PL T) as H. rewrite ST in H.
  rewrite u8_id in H by lia.
  assert (EW : wire_psbt tb global maps ++ rest = psbt_magic ++ wire_pair ([0], tb) ++ flat_map wire_map (global :: maps) ++ rest).
  { unfold wire_psbt. cbn [flat_map]. rewrite <- !app_assoc. reflexivity. }
  assert (LW : len (wire_psbt tb global maps) = 5 + len (wire_pair ([0], tb)) + len (flat_map wire_map (global :: maps))).
  { unfold wire_psbt. cbn [flat_map]. rewrite !len_app. change (len [112; 115; 98; 116; 255]) with 5. lia. }
  unfold whole. rewrite EW, H, LW. clear EW H LW.
  pose proof (loop_maps dsha garbage (global :: maps) (length (flat_map wire_map (global :: maps) ++ rest)) (sections_of t) (looping tb t)
    (5 + len (wire_pair ([0], tb))) rest) as K.
  cbn [looping ps_section ps_tx] in K. unfold ps_metas in K. cbn [looping ps_ins ps_outs] in K. rewrite len_cons in K.
  specialize (K (conj (parsed_settled _) (parsed_settled _)) ltac:(constructor; auto) ltac:(lia) ltac:(lia) LE ltac:(lia)).
  cbn [run_maps] in K. rewrite global_ignored, bind_ok in K. cbv beta in K. cbn [fst snd] in K.
  change (0 + 1) with 1 in K. change (fst (fresh_metas t), snd (fresh_metas t)) with (fresh_metas t) in K. unfold loops in K.
  set (w := flat_map wire_map (global :: maps)) in *. clearbody w.
  destruct (run_maps dsha garbage t (fresh_metas t) 1 maps) as [[m [|]]|].
  - destruct K as (f & k & v & Sk & Sv & Lf & E). rewrite E.
    assert (X : forall q n, ps_section q = sections_of t -> loop f (sections_of t) q n rest = Ok (q, n, rest, true)).
    { intros q nn Eq. destruct rest; destruct f; cbn [psbt_loop]; auto; destruct (Z.ltb_spec (ps_section q) (sections_of t)); try reflexivity; lia. }
    rewrite X by reflexivity. rewrite bind_ok. cbv beta iota zeta. cbn [negb moved ps_section].
    rewrite Z.eqb_refl. destruct (Z.ltb_spec 0 (sections_of t)); [|lia]. cbn [andb].
    eexists. split; [reflexivity|]. split; [reflexivity|]. split; [reflexivity|]. split; [destruct m; reflexivity|].
    split; apply settled_assign; auto.
  - destruct K as (p' & n' & st' & E). rewrite E, bind_ok. cbv beta iota zeta. cbn [negb]. do 3 eexists. split; reflexivity.
  - rewrite K. reflexivity.
Qed.
End Whole.
