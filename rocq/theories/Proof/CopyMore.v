(** Copies: what Props.Copy states, put together. *)
From Coq Require Import Lia.
From Verif Require Import Base.Bytes Base.BytesFacts Spec.Codecs Spec.Wire Spec.Objects Spec.PSBT Spec.Copy Model.Stream Model.Script Model.Tx Model.PSBT Model.Copy
  Proof.PsbtMore Proof.CopyFacts.
Open Scope Z_scope.

Lemma tx_copied t v : tx_holds t v ->
  tx_holds (tx_copy t) v /\ tx_length (tx_copy t) = tx_length t /\ (forall cap off, tx_to_stream (tx_copy t) cap off = tx_to_stream t cap off) /\
  forall dsha, tx_txid dsha (tx_copy t) = tx_txid dsha t /\ tx_wtxid dsha (tx_copy t) = tx_wtxid dsha t.
Proof.
  intros H. pose proof (holds_sizes _ _ H) as S. split; [exact (copy_holds _ _ H)|]. split; [exact (copy_length _ S)|].
  split; [intros; exact (copy_stream _ _ _ S)|]. intros. exact (copy_ids _ _ S).
Qed.
Lemma failed_copy dsha garbage tb rest t n r : bytes_ok tb -> len tb < 2^31 -> plain_length (len tb) -> tx_parse tx_new tb = Ok (t, n, r) -> t_status t <> DONE ->
  t_ins t <> [] \/ t_outs t <> [] ->
  exists p k, psbt_parse dsha garbage psbt_new ([112; 115; 98; 116; 255] ++ wire_pair ([0], tb) ++ rest) = Ok (p, k, rest) /\ ps_status p = FAILED /\
    psbt_copy p = UB /\ forall d, psbt_assign d p = UB.
Proof.
  intros B L PL P D I. destruct (destroy_failed dsha garbage tb rest t n r B L PL P D I) as (p & k & E & F & U).
  exists p, k. split; [exact E|]. split; [exact F|]. split; [exact (proj1 (psbt_copy_ub psbt_new p U))|]. intros d. exact (proj2 (psbt_copy_ub d p U)).
Qed.
