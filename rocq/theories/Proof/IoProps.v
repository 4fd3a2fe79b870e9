(** Scripts, inputs and outputs: the forms used in Props/Streams.v. *)
From Coq Require Import Lia.
From Verif Require Import Base.Bytes Base.BytesFacts Model.Conversion Model.Stream Model.Script Model.Tx
  Spec.Codecs Spec.Wire Spec.Objects Spec.StreamOps Proof.StreamFacts Proof.StreamTrace Proof.Chunks Proof.ScriptFacts Proof.ScriptChunks
  Proof.ScriptSound Proof.TxIo.
Open Scope Z_scope.

Lemma holds_wf : forall s bs, script_holds s bs -> script_wf s.
Proof. intros s bs (<- & E & B & L). repeat split; auto. Qed.
Lemma serializes_slices : forall ser bs, serializes ser bs -> gives_slices ser bs.
Proof. intros ser bs S n off H. apply serialize_slice; auto. Qed.
Lemma parsed_holds : forall bs, bytes_ok bs -> len bs < 2^31 -> script_holds (parsed_script bs) bs.
Proof. intros. repeat split; auto. Qed.

Lemma script_slices : forall s bs, script_holds s bs ->
  gives_slices (script_to_stream s) (wire_bytes bs) /\ script_length s = len (wire_bytes bs).
Proof.
  intros s bs H. pose proof (holds_wf _ _ H) as W. destruct H as (<- & _).
  split; [apply serializes_slices, script_serializes|apply script_length_wire]; auto.
Qed.

Lemma script_parse_back : forall s old bs rest, sc_status s = DONE -> script_holds s old ->
  bytes_ok bs -> len bs < 2^31 ->
  exists s', script_parse s (wire_bytes bs ++ rest) = Ok (s', len (wire_bytes bs), rest) /\
    sc_status s' = DONE /\ script_holds s' bs.
Proof.
  intros s old bs rest D (<- & E & _) B L. exists (parsed_script bs). split; [apply script_parse_wire; auto|].
  split; auto using parsed_holds.
Qed.

Lemma script_sound_holds : forall s old a s' n rest, sc_status s = DONE -> script_holds s old ->
  bytes_ok a -> a <> [] -> hd 0 a <> 255 ->
  script_parse s a = Ok (s', n, rest) -> sc_status s' = DONE ->
  exists bs, script_holds s' bs /\ a = wire_bytes bs ++ rest /\ n = len (wire_bytes bs).
Proof.
  intros s old a s' n rest D (<- & E & _) B NE H PE D'.
  destruct (script_sound _ _ _ _ _ D E B NE PE D' H) as (bs & A & -> & N & Bb & L).
  exists bs. split; auto using parsed_holds.
Qed.

Lemma txin_holds_wf : forall t i, txin_holds t i -> txin_wf t /\ wire_in (abs_in t (si_wit i)) = wire_in i.
Proof.
  intros t i (H1 & H2 & H3 & H4 & H5 & H6 & H7 & H8 & H9). pose proof (holds_wf _ _ H6). split.
  - unfold txin_wf. rewrite H1, H4, H7. auto.
  - destruct H6 as (H6 & _). unfold abs_in, wire_in. cbn [si_prev si_vout si_sig si_seq]. congruence.
Qed.
Lemma txin_slices : forall t i, txin_holds t i ->
  gives_slices (txin_to_stream t) (wire_in i) /\ txin_length t = len (wire_in i).
Proof.
  intros t i H. destruct (txin_holds_wf _ _ H) as [W <-].
  split; [apply serializes_slices, txin_serializes|apply txin_length_wire]; auto.
Qed.
Lemma txout_holds_wf : forall t o, txout_holds t o -> txout_wf t /\ wire_out (abs_out t) = wire_out o.
Proof.
  intros t o (H1 & H2 & H3). pose proof (holds_wf _ _ H3). split.
  - unfold txout_wf. rewrite H1. auto.
  - destruct H3 as (H3 & _). unfold abs_out, wire_out. cbn [so_value so_script]. congruence.
Qed.
Lemma txout_slices : forall t o, txout_holds t o ->
  gives_slices (txout_to_stream t) (wire_out o) /\ txout_length t = len (wire_out o).
Proof.
  intros t o H. destruct (txout_holds_wf _ _ H) as [W <-].
  split; [apply serializes_slices, txout_serializes|apply txout_length_wire]; auto.
Qed.

Lemma txin_parse_back : forall t old i rest, ti_status t = DONE -> txin_holds t old -> in_ok i ->
  exists t', txin_parse t (wire_in i ++ rest) = Ok (t', len (wire_in i), rest) /\ ti_status t' = DONE /\
    ti_wit t' = ti_wit t /\ (forall w, witness_holds (ti_wit t) w ->
      txin_holds t' {| si_prev := si_prev i; si_vout := si_vout i; si_sig := si_sig i; si_seq := si_seq i; si_wit := w |}).
Proof.
  intros t old i rest D (H1 & H2 & H3 & H4 & H5 & (H6 & H6' & _) & H7 & H8 & H9) OK.
  exists (parsed_in i (ti_wit t)). split.
  - apply txin_parse_wire; auto; congruence.
  - destruct OK as (P1 & P2 & P3 & P4 & P5 & P6 & P7). split; [auto|]. split; [auto|]. intros w HW.
    unfold txin_holds, parsed_in. cbn [ti_hash ti_index ti_script ti_seq ti_wit si_prev si_vout si_sig si_seq si_wit].
    repeat (split; [solve [auto using parsed_holds]|]). auto.
Qed.
Lemma txout_parse_back : forall t old o rest, to_status t = DONE -> txout_holds t old -> out_ok o ->
  exists t', txout_parse t (wire_out o ++ rest) = Ok (t', len (wire_out o), rest) /\ to_status t' = DONE /\ txout_holds t' o.
Proof.
  intros t old o rest D (H1 & H2 & (H6 & H6' & _)) OK.
  exists (parsed_out o). split.
  - apply txout_parse_wire; auto; congruence.
  - destruct OK as (P1 & P2 & P3). split; [auto|]. repeat (split; [solve [auto using parsed_holds]|]). auto using parsed_holds.
Qed.

(** Between two parses. *)
Lemma script_chunks_idle : forall s, sc_status s <> INCOMPLETE -> chunk_invariant script_parse sc_status s.
Proof. intros. apply script_chunks. apply script_ok_other. auto. Qed.
Lemma txin_chunks_idle : forall t, ti_status t <> INCOMPLETE -> chunk_invariant txin_parse ti_status t.
Proof. intros. apply txin_chunks. intros X. congruence. Qed.
Lemma txout_chunks_idle : forall t o, to_status t = DONE -> txout_holds t o -> chunk_invariant txout_parse to_status t.
Proof.
  intros t o D (_ & _ & (_ & E & _)). apply txout_chunks. unfold txout_ok. rewrite D, E. apply len_nonneg.
Qed.
Lemma script_empty_chunk : exists s, script_parse script_new [] = Ok (s, 0, []) /\ sc_status s = FAILED.
Proof. eexists. split; vm_compute; reflexivity. Qed.

(** Reading from an empty hex stream: the length minus one wraps. *)
Lemma hex_read_empty : pb_read (pb_new [] HEX) = UB.
Proof. vm_compute. reflexivity. Qed.

(** Complete objects, fed in pieces. *)
Lemma feed_done : forall {St} parse (status : St -> pstatus) st chunks st' n rest,
  chunk_invariant parse status st -> chunks <> [] -> Forall (fun c => c <> [] /\ bytes_ok c) chunks ->
  parse st (concat chunks) = Ok (st', n, rest) -> status st' = DONE ->
  feed parse status st chunks = Ok (st', n, rest).
Proof.
  intros St parse status st chunks st' n rest CI NE F E D.
  destruct (CI chunks NE F ltac:(congruence)) as [S|[_ (? & ? & ? & S & S2)]]; [congruence|].
  rewrite E in S. injection S as <- <- <-. congruence.
Qed.
Lemma script_feed : forall s old bs rest chunks, sc_status s = DONE -> script_holds s old ->
  bytes_ok bs -> len bs < 2^31 -> Forall (fun c => c <> [] /\ bytes_ok c) chunks -> concat chunks = wire_bytes bs ++ rest ->
  exists s', feed script_parse sc_status s chunks = Ok (s', len (wire_bytes bs), rest) /\
    sc_status s' = DONE /\ script_holds s' bs.
Proof.
  intros s old bs rest chunks D H B L F E. destruct (script_parse_back s old bs rest D H B L) as (s' & P & D' & H').
  exists s'. split; auto. apply feed_done; auto; [apply script_chunks_idle; congruence| |congruence].
  intros ->. cbn [concat] in E. assert (X := f_equal len E). rewrite len_app, len_nil in X. pose proof (wire_bytes_small bs L). pose proof (len_nonneg _ rest). lia.
Qed.
Lemma txin_feed : forall t old i rest chunks, ti_status t = DONE -> txin_holds t old -> in_ok i ->
  Forall (fun c => c <> [] /\ bytes_ok c) chunks -> concat chunks = wire_in i ++ rest ->
  feed txin_parse ti_status t chunks = txin_parse t (wire_in i ++ rest).
Proof.
  intros t old i rest chunks D H OK F E. destruct (txin_parse_back t old i rest D H OK) as (t' & P & D' & _).
  rewrite P. apply feed_done; auto; [apply txin_chunks_idle; congruence| |congruence].
  intros ->. cbn [concat] in E. assert (X := f_equal len E). rewrite len_app, len_nil, len_wire_in in X by apply OK.
  pose proof (len_nonneg _ (wire_bytes (si_sig i))). pose proof (len_nonneg _ rest). lia.
Qed.
Lemma txout_feed : forall t old o rest chunks, to_status t = DONE -> txout_holds t old -> out_ok o ->
  Forall (fun c => c <> [] /\ bytes_ok c) chunks -> concat chunks = wire_out o ++ rest ->
  feed txout_parse to_status t chunks = txout_parse t (wire_out o ++ rest).
Proof.
  intros t old o rest chunks D H OK F E. destruct (txout_parse_back t old o rest D H OK) as (t' & P & D' & _).
  rewrite P. apply feed_done; auto; [eapply txout_chunks_idle; eauto| |congruence].
  intros ->. cbn [concat] in E. assert (X := f_equal len E). rewrite len_app, len_nil, len_wire_out in X.
  pose proof (len_nonneg _ (wire_bytes (so_script o))). pose proof (len_nonneg _ rest). lia.
Qed.
