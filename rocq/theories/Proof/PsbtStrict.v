(** Malformed partially signed transactions. *)
From Coq Require Import Lia.
From Verif Require Import Base.Bytes Base.BytesFacts Spec.Codecs Spec.Wire Spec.Objects Spec.Signature Spec.Point Spec.PSBT
  Model.Conversion Model.Stream Model.Script Model.Tx Model.Signature Model.Point Model.PSBT
  Proof.IntVarint Proof.StreamFacts Proof.ScriptFacts Proof.TxIo Proof.TxParse Proof.TxHash Proof.TxProps Proof.SigProps Proof.PsbtFacts Proof.PsbtParse Proof.PsbtWrite Proof.PsbtEntries Proof.PsbtInv Proof.PsbtProps Proof.PsbtMore.
Open Scope Z_scope.

Section Strict.
Variable dsha : list Z -> list Z.
Variable garbage : list Z.
Notation parse := (psbt_parse dsha garbage).
Notation in_entry := (in_entry dsha garbage).
Notation ins_run := (ins_run dsha garbage).
Notation reusable := (reusable dsha garbage).

(** ** The magic *)
Lemma magic_bad : forall pre c rest, (length pre < 5)%nat -> pre = firstn (length pre) psbt_magic -> c <> nth (length pre) psbt_magic 0 ->
  exists n, magic_loop 0 (pre ++ c :: rest) = Ok (n, rest, false).
Proof.
  assert (H : forall pre k c rest, (length pre + k < 5)%nat -> pre = firstn (length pre) (skipn k psbt_magic) -> c <> nth (length pre + k) psbt_magic 0 ->
    exists n, magic_loop (Z.of_nat k) (pre ++ c :: rest) = Ok (n, rest, false)).
  { induction pre as [|a pre IH]; intros k c rest L E C.
    - cbn [length app Nat.add] in *. cbn [magic_loop]. destruct (Z.ltb_spec (Z.of_nat k) 5); [|lia]. unfold aget. change (len psbt_magic) with 5.
      destruct (Z.leb_spec 0 (Z.of_nat k)); [|lia]. destruct (Z.ltb_spec (Z.of_nat k) 5); [|lia]. cbn [andb]. rewrite bind_ok, Nat2Z.id.
      destruct (Z.eqb_spec c (nth k psbt_magic 0)); [congruence|]. eauto.
    - cbn [length app] in *. cbn [magic_loop]. destruct (Z.ltb_spec (Z.of_nat k) 5); [|lia]. unfold aget. change (len psbt_magic) with 5.
      destruct (Z.leb_spec 0 (Z.of_nat k)); [|lia]. destruct (Z.ltb_spec (Z.of_nat k) 5); [|lia]. cbn [andb]. rewrite bind_ok, Nat2Z.id.
      assert (EA : a = nth k psbt_magic 0 /\ pre = firstn (length pre) (skipn (S k) psbt_magic)).
      { do 5 (destruct k as [|k]; [cbn [skipn psbt_magic firstn nth] in *; injection E as E1 E2; auto|]). lia. }
      destruct EA as [-> EP]. rewrite Z.eqb_refl. replace (Z.of_nat k + 1) with (Z.of_nat (S k)) by lia. apply IH; auto; [lia|].
      replace (length pre + S k)%nat with (S (length pre) + k)%nat by lia. auto. }
  intros pre c rest L E C. apply (H pre 0%nat c rest); [lia|exact E|rewrite Nat.add_0_r; exact C].
Qed.
Lemma bad_magic : forall p pre c rest, reusable p -> (length pre < 5)%nat -> pre = firstn (length pre) psbt_magic -> c <> nth (length pre) psbt_magic 0 ->
  exists p' n, parse p (pre ++ c :: rest) = Ok (p', n, rest) /\ ps_status p' = FAILED.
Proof.
  intros p pre c rest RP L E C. destruct (reusable_ready dsha garbage p RP) as (D & _ & R). unfold psbt_parse. rewrite D. unfold psbt_start. rewrite R, !bind_ok. cbv zeta.
  unfold psbt_body. cbn [ps_parsed]. destruct (magic_bad pre c rest L E C) as (n & ->). rewrite bind_ok. cbv beta iota zeta. cbn [negb]. do 2 eexists. split; reflexivity.
Qed.

(** ** The key of the transaction *)
Lemma bad_global : forall p k tb rest, reusable p -> bytes_ok k -> len k < 2^31 -> bytes_ok tb -> len tb < 2^31 -> k <> [0] ->
  exists p' n, parse p (psbt_magic ++ wire_pair (k, tb) ++ rest) = Ok (p', n, rest) /\ ps_status p' = FAILED.
Proof.
  intros p k tb rest RP BK LK B L NK. destruct (reusable_ready dsha garbage p RP) as (D & [SK SV] & R). unfold psbt_parse. rewrite D. unfold psbt_start. rewrite R. rewrite !bind_ok. cbv zeta.
  set (q := mkPsbt _ _ _ _ _ _ _ _ _).
  assert (E1 : script_parse (ps_key p) (wire_pair (k, tb) ++ rest) = Ok (parsed_script k, len (wire_bytes k), wire_bytes tb ++ rest)).
  { unfold wire_pair. rewrite <- app_assoc. cbn [fst snd]. apply script_parse_wire; try apply SK; auto. }
  assert (E2 : script_parse (ps_value p) (wire_bytes tb ++ rest) = Ok (parsed_script tb, len (wire_bytes tb), rest)) by (apply script_parse_wire; auto; apply SV).
  unfold psbt_body. change (ps_parsed q) with 0. change (ps_key q) with (ps_key p). change (ps_value q) with (ps_value p).
  change (ps_last q) with 5. rewrite magic_ok, bind_ok. cbv beta iota zeta. cbn [negb]. change (5 =? 5) with true. cbn [parse_if].
  step E1. cbv iota. step E2. cbv iota.
  change (is_incomplete (parsed_script k)) with false. cbn [andb parse_if]. rewrite bind_ok. cbv beta iota zeta.
  change (is_failed (parsed_script k)) with false. cbv iota.
  change (is_incomplete (parsed_script tb)) with false. cbn [andb parse_if]. rewrite bind_ok. cbv beta iota zeta.
  change (is_failed (parsed_script tb)) with false. cbv iota.
  change (ps_last (ps_set_value (ps_set_key q (parsed_script k)) (parsed_script tb)) =? 5) with true. rewrite !parsed_done. cbn [andb].
  unfold psbt_global. change (ps_key (ps_set_value (ps_set_key q (parsed_script k)) (parsed_script tb))) with (parsed_script k).
  change (ps_value (ps_set_value (ps_set_key q (parsed_script k)) (parsed_script tb))) with (parsed_script tb).
  rewrite (ser_parsed k) by auto. rewrite bind_ok. cbv beta.
  set (G := if script_length (parsed_script k) =? 2 then _ else _). assert (GT : G = Ok true).
  { unfold G. rewrite parsed_script_length by auto. destruct (Z.eqb_spec (len (wire_bytes k)) 2) as [E|]; [|reflexivity].
    assert (LK1 : len k = 1).
    { unfold wire_bytes, compact_size in E. rewrite len_app in E. pose proof (len_nonneg _ k). destruct (Z.ltb_spec (len k) 253); [change (len [len k]) with 1 in E; lia|].
      exfalso. match type of E with len ?x + _ = _ => pose proof (len_nonneg _ x) end. lia. }
    destruct k as [|c [|d k]]; [discriminate| |rewrite !len_cons in LK1; pose proof (len_nonneg _ k); lia].
    change (wire_bytes [c]) with [1; c]. change (aget [1; c] 0) with (Ok 1). change (aget [1; c] 1) with (Ok c). rewrite !bind_ok.
    change (negb (1 =? 1)) with false. cbn [orb]. destruct (Z.eqb_spec c 0); [congruence|reflexivity]. }
  rewrite GT, bind_ok. cbv iota. rewrite bind_ok. cbv beta iota zeta. cbn [negb]. do 2 eexists. split; reflexivity.
Qed.

(** ** The output that is spent *)
Lemma utxo_first : forall p v global mi mo rest p' n r, reusable p -> psbt_tx v -> fits_maps v global mi mo ->
  parse p (wire_psbt (wire_tx v) global (mi ++ mo) ++ rest) = Ok (p', n, r) -> ps_status p' = DONE ->
  forall j b m, nth_error mi j = Some (([1], b) :: m) -> plain_length (len b) ->
  exists t k s, txout_parse txout_new b = Ok (t, k, s) /\ to_status t = DONE.
Proof.
  intros p v global mi mo rest p' n r RP V F E D j b m NM PL. destruct (input_run _ _ _ _ _ _ _ _ _ _ _ (reusable_ready dsha garbage p RP) V F E D) as (ins & EI & L & H).
  destruct F as (LM & _ & _ & PM). assert (NI : exists i, nth_error (s_ins v) j = Some i).
  { destruct (nth_error (s_ins v) j) eqn:K; eauto. apply nth_error_None in K. pose proof (proj1 (nth_error_Some mi j) ltac:(congruence)). unfold len in LM. lia. }
  destruct NI as (i & NI). destruct (H j i _ NI NM) as (ti & x & TH & TX & NX & PX). apply pairs_cons in PX as (z' & res & EE & R & _).
  apply Forall_app in PM as [PM _]. rewrite Forall_forall in PM. specialize (PM _ (nth_error_In _ _ NM)). apply Forall_inv in PM as (_ & _ & _ & B & LB). cbn [snd] in *.
  unfold PsbtEntries.in_entry in EE. cbn [fst snd] in EE. rewrite first_byte in EE by (try reflexivity; apply byte1; lia). rewrite bind_ok in EE. cbv beta in EE.
  unfold add_input in EE. cbv zeta in EE. change (1 =? 0) with false in EE. change (1 =? 1) with true in EE. cbv iota in EE.
  rewrite one_byte in EE by lia. change (negb (2 =? 2)) with false in EE. cbv iota in EE.
  destruct (body_plain b B LB PL) as [_ BE]. rewrite BE in EE. change (im_out im_new) with txout_new in EE.
  destruct (txout_parse txout_new b) as [[[t k] s]|]; [|discriminate]. rewrite bind_ok in EE. cbv beta in EE. cbn [fst snd] in EE.
  exists t, k, s. split; [reflexivity|]. assert (ER : (if pstatus_eqb (to_status t) DONE then 1 else -2) = res) by congruence.
  destruct (to_status t); [reflexivity| |]; cbn [pstatus_eqb] in ER; lia.
Qed.

(** Bytes after the output are ignored. *)
Lemma entry_trailing : forall x i o z, to_status (im_out x) = DONE -> sc_len (to_script (im_out x)) = len (sc_arr (to_script (im_out x))) ->
  out_ok o -> plain_length (len (wire_out o ++ z)) -> bytes_ok (wire_out o ++ z) -> len (wire_out o ++ z) < 2^31 ->
  in_entry x i ([1], wire_out o ++ z) = Ok (mkInMeta (parsed_out o) (im_ders x) (im_redeem x) (im_witness x) (im_sigs x), 1).
Proof.
  intros x i o z S1 S3 O PL B L. unfold PsbtEntries.in_entry. cbn [fst snd]. rewrite first_byte by (try reflexivity; apply byte1; lia). rewrite bind_ok. cbv beta.
  unfold add_input. cbv zeta. change (1 =? 0) with false. change (1 =? 1) with true. cbv iota. rewrite one_byte by lia. change (negb (2 =? 2)) with false. cbv iota.
  destruct (body_plain (wire_out o ++ z) B L PL) as [_ ->].
  rewrite txout_parse_wire by auto. rewrite bind_ok. cbv beta zeta. cbn [fst snd]. reflexivity.
Qed.
Lemma entries_loose : forall q v i o1 o2 z1 z2 rest, reusable q -> psbt_tx v -> s_ins v = [i] -> out_ok o1 -> out_ok o2 -> bytes_ok z1 -> bytes_ok z2 ->
  len (wire_out o1 ++ z1) < 2^31 -> len (wire_out o2 ++ z2) < 2^31 -> plain_length (len (wire_out o1 ++ z1)) -> plain_length (len (wire_out o2 ++ z2)) ->
  let x := wire_psbt (wire_tx v) [] ([[([1], wire_out o1 ++ z1); ([1], wire_out o2 ++ z2)]] ++ repeat [] (length (s_outs v))) in
  exists p m, parse q (x ++ rest) = Ok (p, len x, rest) /\ ps_status p = DONE /\ ps_ins p = Some [m] /\ txout_holds (im_out m) o2.
Proof.
  intros q v i o1 o2 z1 z2 rest RQ V EI O1 O2 Z1 Z2 L1 L2 P1 P2 x.
  assert (B1 : bytes_ok (wire_out o1 ++ z1)) by (apply Forall_app; split; [apply wire_out_ok|]; auto).
  assert (B2 : bytes_ok (wire_out o2 ++ z2)) by (apply Forall_app; split; [apply wire_out_ok|]; auto).
  assert (FM : fits_maps v [] [[([1], wire_out o1 ++ z1); ([1], wire_out o2 ++ z2)]] (repeat [] (length (s_outs v)))).
  { repeat split; [rewrite EI; reflexivity|apply len_repeat|constructor|]. apply Forall_app. split; [|apply empties_ok]. constructor; [|constructor].
    constructor; [|constructor; [|constructor]]; (split; [discriminate|]; split; [apply byte1; lia|]; split; [reflexivity|]); cbn [snd]; split; auto. }
  destruct (tx_ins_nth v 0 i ltac:(rewrite EI; reflexivity)) as (ti & NT & TH & TX).
  assert (ET : t_ins (parsed_tx v) = [ti]).
  { assert (LT : length (t_ins (parsed_tx v)) = 1%nat) by (unfold parsed_tx; cbn [t_ins]; destruct (has_witness v); rewrite map_length, EI; reflexivity).
    destruct (t_ins (parsed_tx v)) as [|a [|b l]]; try discriminate. injection NT as <-. reflexivity. }
  assert (RI : ins_run (repeat im_new (length (s_ins v))) (t_ins (parsed_tx v)) [[([1], wire_out o1 ++ z1); ([1], wire_out o2 ++ z2)]] =
    Ok ([mkInMeta (parsed_out o2) [] script_new script_new []], true)).
  { rewrite EI, ET. cbn [length repeat PsbtEntries.ins_run pairs_on].
    rewrite entry_trailing by (solve [reflexivity | auto]). rewrite bind_ok. cbn [fst snd]. change (1 <? 0) with false. cbv iota.
    rewrite entry_trailing by (solve [reflexivity | auto]).
    rewrite !bind_ok. reflexivity. }
  destruct (whole_accepts dsha garbage q v [] _ _ rest _ _ (reusable_ready dsha garbage q RQ) V FM RI (outs_empty garbage _)) as (p & E & D & T & EP & EO).
  exists p. eexists. split; [exact E|]. split; [auto|]. split; [exact EP|]. cbn [im_out]. destruct O2 as (A1 & A2 & A3). split; [reflexivity|]. split; [auto|].
  cbn [parsed_out to_script]. repeat split; auto.
Qed.
End Strict.
