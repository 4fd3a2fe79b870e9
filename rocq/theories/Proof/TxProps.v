(** The transaction properties, from the lemmas about wire forms. *)
From Coq Require Import Lia.
From Verif Require Import Base.Bytes Base.BytesFacts Model.Conversion Model.Stream Model.Script Model.Tx Model.Sign
  Spec.Codecs Spec.Wire Spec.Objects Spec.Sighash Proof.IntVarint Proof.StreamFacts Proof.ScriptFacts Proof.WitnessFacts Proof.TxIo Proof.IoProps Proof.TxSer Proof.TxParse
  Proof.TxHash Proof.TxLimits Proof.WireInj.
Open Scope Z_scope.

Lemma witness_slices : forall w els, witness_holds w els ->
  gives_slices (witness_to_stream w) (wire_witness els) /\ witness_length w = len (wire_witness els).
Proof. intros w els H. split; [apply serializes_slices, witness_ser; auto|apply witness_length_wire; auto]. Qed.
Lemma tx_slices : forall t v, tx_holds t v -> small_tx v ->
  gives_slices (tx_to_stream t) (wire_tx v) /\ tx_length t = len (wire_tx v).
Proof.
  intros t v H (A & B & C). assert (F : fits v) by (unfold fits, in_fits; repeat split; auto; lia).
  split; [apply serializes_slices, tx_serializes; auto|apply tx_length_wire; auto].
Qed.
Lemma witness_round : forall w els rest, wi_status w = DONE -> (exists old, witness_holds w old) -> len els < 253 -> Forall bytes_ok els ->
  len (flat_map wire_bytes els) < 2^31 ->
  exists w', witness_parse w (wire_witness els ++ rest) = Ok (w', len (wire_witness els), rest) /\ wi_status w' = DONE /\ witness_holds w' els.
Proof.
  intros w els rest D (old & (A & L & X & Y & Z0)) N B S. exists (parsed_witness els).
  assert (WL : wi_len w = len (wi_arr w)) by (rewrite A, L; reflexivity).
  split; [apply witness_parse_wire; auto|]. split; [reflexivity|]. apply parsed_witness_holds; auto.
Qed.
Lemma long_witness_fails : forall w els rest, wi_status w = DONE -> 253 <= len els < 2^64 ->
  exists w' n r, witness_parse w (wire_witness els ++ rest) = Ok (w', n, r) /\ wi_status w' = FAILED.
Proof.
  intros w els rest D N. unfold wire_witness. rewrite <- app_assoc. destruct (size_long (len els) N) as (b & a & -> & _ & Hb & _).
  unfold witness_parse. rewrite D. unfold witness_parse_body. cbn [app].
  unfold witness_clear. cbn [wi_parsed wi_len wi_arr wi_num wi_cur wi_elen wi_eparsed wi_curLen wi_lenLen wi_status].
  change (0 =? 0) with true. cbv iota. destruct (Z.ltb_spec b 253); [lia|]. cbv iota. eexists _, _, _. split; reflexivity.
Qed.
Lemma holds_ok : forall t v, tx_holds t v -> tx_ok v.
Proof.
  intros t v (V & V1 & L & L1 & FI & FO). unfold tx_ok. split; [auto|]. split; [auto|]. split.
  - clear -FI. induction FI as [|a i l m P F IH]; constructor; auto.
    destruct P as (P1 & P2 & P3 & P4 & P5 & (Q1 & Q2 & Q3 & Q4) & P7 & P8 & (W1 & W2 & W3 & W4 & W5)). unfold in_ok. tauto.
  - clear -FO. induction FO as [|a i l m P F IH]; constructor; auto. destruct P as (P1 & P2 & (Q1 & Q2 & Q3 & Q4)). unfold out_ok. tauto.
Qed.
Lemma holds_wit_ok : forall t v, tx_holds t v -> Forall (fun i => len (si_wit i) < 253) (s_ins v) -> Forall wit_ok (s_ins v).
Proof.
  intros t v (V & V1 & L & L1 & FI & FO) N. clear -FI N. induction FI as [|a i l m P F IH]; constructor; inversion N; subst; auto.
  destruct P as (P1 & P2 & P3 & P4 & P5 & (Q1 & Q2 & Q3 & Q4) & P7 & P8 & (W1 & W2 & W3 & W4 & W5)). unfold wit_ok. tauto.
Qed.
Lemma tx_round_trip : forall t v t0 rest, tx_holds t v -> small_tx v -> t_status t0 = DONE ->
  serialize (tx_to_stream t) (Z.to_nat (tx_length t)) 0 = Ok (tx_length t, wire_tx v) /\
  exists t', tx_parse t0 (wire_tx v ++ rest) = Ok (t', tx_length t, rest) /\ t_status t' = DONE /\ tx_holds t' v.
Proof.
  intros t v t0 rest H SM D. destruct (tx_slices t v H SM) as (G & L). rewrite L. split.
  - pose proof (G (Z.to_nat (len (wire_tx v))) 0 ltac:(lia)) as Q. cbv zeta in Q. cbn [Z.to_nat skipn] in Q. rewrite Q.
    assert (FN : firstn (Z.to_nat (len (wire_tx v))) (wire_tx v) = wire_tx v) by (apply firstn_all2; unfold len; lia). rewrite FN.
    replace (Z.to_nat (len (wire_tx v)) - length (wire_tx v))%nat with 0%nat by (unfold len; lia). unfold zeros. cbn [repeat]. now rewrite app_nil_r.
  - destruct SM as (A & B & C). apply tx_round; auto; [eapply holds_ok; eauto|eapply holds_wit_ok; eauto].
Qed.

(** ** Identifiers *)
Lemma same_legacy : forall a b, same_but_witness a b -> wire_legacy a = wire_legacy b.
Proof.
  intros a b (V & O & L & K). unfold wire_legacy. rewrite V, O, L. do 2 f_equal. unfold wire_list.
  assert (E : flat_map wire_in (s_ins a) = flat_map wire_in (s_ins b) /\ len (s_ins a) = len (s_ins b)).
  { revert K. generalize (s_ins a) (s_ins b). clear. intros l. induction l as [|x l IH]; intros [|y m] K; cbn [map] in K; try discriminate; auto.
    injection K as K1 K2 K3 K4 K. apply IH in K as (E1 & E2). cbn [flat_map]. rewrite !len_cons, E1, E2. split; auto. f_equal. unfold wire_in. rewrite K1, K2, K3, K4. auto. }
  destruct E as (-> & ->). reflexivity.
Qed.
Lemma txid_ok : forall dsha t v, tx_holds t v -> countable v -> tx_txid dsha t = Ok (rev (dsha (wire_legacy v))).
Proof. intros dsha t v H (A & B). unfold tx_txid, tx_hash. rewrite (tx_hash_data_ok _ _ H A B). reflexivity. Qed.
Lemma txid_witness : forall dsha t t' v v', tx_holds t v -> tx_holds t' v' -> countable v -> same_but_witness v v' ->
  tx_txid dsha t = tx_txid dsha t'.
Proof.
  intros dsha t t' v v' H H' C S. rewrite (txid_ok _ _ _ H C), (txid_ok _ _ _ H'); [now rewrite (same_legacy _ _ S)|].
  destruct S as (_ & O & _ & K). apply (f_equal (@length _)) in K. rewrite !map_length in K. destruct C. unfold countable, len in *. rewrite <- K, <- O. auto.
Qed.
Lemma txid_serialized : forall dsha t v, tx_holds t v -> small_tx v -> has_witness v = false ->
  exists bytes, serialize (tx_to_stream t) (Z.to_nat (tx_length t)) 0 = Ok (tx_length t, bytes) /\ tx_txid dsha t = Ok (rev (dsha bytes)).
Proof.
  intros dsha t v H SM W. destruct (tx_round_trip t v tx_new [] H SM eq_refl) as (S & _). exists (wire_tx v). split; auto.
  rewrite (txid_ok dsha t v); auto; [unfold wire_tx; now rewrite W|]. destruct SM as (A & B & _). unfold countable. lia.
Qed.
Lemma wtxid_ok : forall dsha t v, tx_holds t v -> countable v -> has_witness v = true -> tx_wtxid dsha t = Ok (rev (dsha (wire_tx v))).
Proof. intros dsha t v H (A & B) W. unfold tx_wtxid. rewrite (tx_whash_ok dsha t v H A B). unfold wire_tx. rewrite W. reflexivity. Qed.
Lemma segwit_not_legacy : forall v, wire_segwit v <> wire_legacy v.
Proof.
  intros v E. apply (f_equal len) in E. unfold wire_segwit, wire_legacy in E. rewrite !len_app in E.
  pose proof (len_nonneg _ (flat_map (fun i => wire_witness (si_wit i)) (s_ins v))). change (len [0; 1]) with 2 in E. lia.
Qed.
Lemma wtxid_wrong : forall t v, tx_holds t v -> countable v -> has_witness v = false ->
  exists bytes, (forall dsha, tx_wtxid dsha t = Ok (rev (dsha bytes))) /\ bytes <> wire_tx v.
Proof.
  intros t v H (A & B) W. exists (wire_segwit v). split.
  - intros dsha. unfold tx_wtxid. now rewrite (tx_whash_ok dsha t v H A B).
  - unfold wire_tx. rewrite W. apply segwit_not_legacy.
Qed.

(** ** Signature hashes *)
Lemma sighash_like_all : forall dsha t v idx s code ty, tx_holds t v -> countable v -> (idx < 256)%nat -> script_holds s code ->
  tx_sigHash dsha t (Z.of_nat idx) s ty = Ok (dsha (legacy_body v idx code 1 ++ le_bytes 4 ty)).
Proof. intros dsha t v idx s code ty H (A & B) I S. rewrite all_body. apply sigHash_any; auto. Qed.
Lemma sighash_segwit_like_all : forall dsha t v idx i s code amount ty, tx_holds t v -> (idx < 256)%nat ->
  nth_error (s_ins v) idx = Some i -> script_holds s code ->
  tx_sigHashSegwit dsha t (Z.of_nat idx) s amount ty = Ok (dsha (bip143_body dsha v idx i code amount 1 ++ le_bytes 4 ty)).
Proof. intros. rewrite all143_body. apply sigHashSegwit_any; auto. Qed.

Lemma witness_cut : 
  let els := [repeat 7 300] in
  let w := wire_witness els in
  (exists w', witness_parse witness_new w = Ok (w', len w, []) /\ wi_status w' = DONE /\ wi_arr w' = flat_map wire_bytes els) /\
  exists w', feed witness_parse wi_status witness_new [firstn 2 w; skipn 2 w] = Ok (w', 2, skipn 2 w) /\ wi_status w' = DONE /\ wi_arr w' = [].
Proof. vm_compute. split; eexists; repeat split. Qed.

(** ** Commitments of the hashes actually computed *)
Lemma legacy_sighash_commits : forall dsha t t' a b idx idx' s s' code code' ty ty' h,
  tx_holds t a -> tx_holds t' b -> countable a -> countable b -> (idx < 256)%nat -> (idx' < 256)%nat ->
  (idx < length (s_ins a))%nat -> (idx' < length (s_ins b))%nat -> script_holds s code -> script_holds s' code' ->
  signs_all ty -> signs_all ty' -> 0 <= ty < 2^32 -> 0 <= ty' < 2^32 ->
  tx_sigHash dsha t (Z.of_nat idx) s ty = Ok h -> tx_sigHash dsha t' (Z.of_nat idx') s' ty' = Ok h ->
  collides dsha (legacy_preimage a idx code ty) (legacy_preimage b idx' code' ty') \/
  (s_version a = s_version b /\ map op_key (s_ins a) = map op_key (s_ins b) /\ s_outs a = s_outs b /\ s_lock a = s_lock b /\
   code = code' /\ ty = ty' /\ (code <> [] -> idx = idx')).
Proof.
  intros dsha t t' a b idx idx' s s' code code' ty ty' h H H' (C1 & C2) (C3 & C4) I I' J J' S S' A A' T T' E E'.
  rewrite (sigHash_ok dsha t a idx s code ty) in E by auto. rewrite (sigHash_ok dsha t' b idx' s' code' ty') in E' by auto.
  assert (Q : dsha (legacy_preimage a idx code ty) = dsha (legacy_preimage b idx' code' ty')) by congruence.
  destruct (no_coll _ _ _ Q) as [|Q']; auto. right. destruct S as (_ & _ & B & L). destruct S' as (_ & _ & B' & L').
  apply preimage_commits in Q'; auto; eapply holds_ok; eauto.
Qed.

Lemma tx_too_many_serialize : forall t v n, tx_holds t v -> 253 <= len (s_ins v) \/ 253 <= len (s_outs v) ->
  len (wire_segwit v) < 2^62 -> len (wire_tx v) <= Z.of_nat n -> serialize (tx_to_stream t) n 0 = UB.
Proof. intros t v n H B L N. unfold serialize. rewrite (tx_too_many t v (Some n) H B L N). reflexivity. Qed.
