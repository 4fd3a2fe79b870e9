(** Transactions: serialization. *)
From Coq Require Import Lia.
From Verif Require Import Base.Bytes Base.BytesFacts Model.Conversion Model.Stream Model.Script Model.Tx
  Spec.Codecs Spec.Wire Spec.Objects Proof.IntVarint Proof.StreamFacts Proof.ScriptFacts Proof.WitnessFacts Proof.TxIo Proof.IoProps.
Open Scope Z_scope.

(** ** Parts *)
Lemma script_ser : forall s bs, script_holds s bs -> serializes (script_to_stream s) (wire_bytes bs).
Proof. intros s bs H. pose proof (script_serializes s (holds_wf _ _ H)) as S. destruct H as (<- & _). exact S. Qed.
Lemma txin_ser : forall t i, txin_holds t i -> serializes (txin_to_stream t) (wire_in i).
Proof. intros t i H. destruct (txin_holds_wf _ _ H) as [W <-]. apply txin_serializes; auto. Qed.
Lemma txout_ser : forall t o, txout_holds t o -> serializes (txout_to_stream t) (wire_out o).
Proof. intros t o H. destruct (txout_holds_wf _ _ H) as [W <-]. apply txout_serializes; auto. Qed.
Lemma holds_count : forall w els, witness_holds w els -> len els < 2^31.
Proof.
  intros w els (_ & _ & _ & _ & L). pose proof (flat_wire_length els). unfold len in *. lia.
Qed.
Lemma witness_ser : forall w els, witness_holds w els -> serializes (witness_to_stream w) (wire_witness els).
Proof.
  intros w els H. pose proof (holds_count _ _ H). destruct H as (A & L & N & B & S). unfold wire_witness. rewrite <- A, <- N.
  pose proof (len_nonneg _ els).
  apply witness_serializes. split; [|split]; [congruence|lia|congruence].
Qed.
Lemma witness_length_wire : forall w els, witness_holds w els -> witness_length w = len (wire_witness els).
Proof.
  intros w els H. pose proof (holds_count _ _ H). pose proof (len_nonneg _ els). destruct H as (A & L & N & B & S).
  unfold witness_length, wire_witness. rewrite len_app, L, N, lenVarInt_spec by lia. lia.
Qed.

(** ** Lists of parts *)
Lemma F2_impl : forall {A B} (P Q : A -> B -> Prop), (forall a b, P a b -> Q a b) -> forall l m, Forall2 P l m -> Forall2 Q l m.
Proof. intros A B P Q I l m F. induction F; constructor; auto. Qed.
Lemma F2_length : forall {A B} (P : A -> B -> Prop) l m, Forall2 P l m -> length l = length m.
Proof. intros A B P l m F. induction F; cbn; auto. Qed.
Lemma flat_len : forall {E X} (lenf : E -> Z) (wire : X -> list Z) l xs,
  Forall2 (fun e x => lenf e = len (wire x)) l xs -> zsum (map lenf l) = len (flat_map wire xs).
Proof. induction 1; cbn [map zsum fold_right flat_map]; auto. fold (zsum (map lenf l)). rewrite len_app, IHForall2. lia. Qed.

Lemma writes_objs : forall {E X} (lenf : E -> Z) (ser : E -> serializer) (wire : X -> list Z) l xs,
  Forall2 (fun e x => lenf e = len (wire x) /\ serializes (ser e) (wire x)) l xs ->
  forall base, 0 <= base -> base + len (flat_map wire xs) < 2^64 ->
  (forall w w1 b, write_objs lenf ser l base w = Ok (w1, b) -> b = base + len (flat_map wire xs)) /\
  writes base (flat_map wire xs) (fun w => let! r := write_objs lenf ser l base w in Ok (fst r)).
Proof.
  induction 1 as [|e x l xs [L S] F IH]; intros base B0 BL; cbn [write_objs flat_map] in *.
  - split; [intros w w1 b H; injection H as <- <-; rewrite len_nil; lia|]. apply writes_nil. intros. reflexivity.
  - rewrite len_app in BL. pose proof (len_nonneg _ (wire x)). pose proof (len_nonneg _ (flat_map wire xs)).
    destruct (IH (base + len (wire x)) ltac:(lia) ltac:(lia)) as [IH1 IH2]. rewrite L. split.
    + intros w w1 b H1. destruct (write_obj base (len (wire x)) (ser e) w) as [w2|]; cbn [bind] in H1; [|discriminate].
      apply IH1 in H1. rewrite len_app. lia.
    + eapply writes_ext; [|apply writes_seq; [apply writes_obj; [exact S|lia|lia]|exact IH2]].
      intros w. cbv beta. destruct (write_obj _ _ _ w); reflexivity.
Qed.
Lemma writes_objs_bind : forall {E X} (lenf : E -> Z) (ser : E -> serializer) (wire : X -> list Z) l xs,
  Forall2 (fun e x => lenf e = len (wire x) /\ serializes (ser e) (wire x)) l xs ->
  forall base, 0 <= base -> base + len (flat_map wire xs) < 2^64 ->
  forall w (k : wst * Z -> outcome wst), (base <= w_pos w \/ w_available w = false) ->
  (let! r := write_objs lenf ser l base w in k r) =
    let! w1 := (let! r := write_objs lenf ser l base w in Ok (fst r)) in k (w1, base + len (flat_map wire xs)).
Proof.
  intros E X lenf ser wire l xs F base B0 BL w k HW.
  destruct (writes_objs lenf ser wire l xs F base B0 BL) as [H1 H2].
  destruct (write_objs lenf ser l base w) as [[w1 b]|] eqn:Q; cbn [bind fst]; auto. rewrite (H1 _ _ _ Q). reflexivity.
Qed.

(** ** The marker and flag *)
Lemma writes_mark : forall sg base b, writes base (if sg : bool then [b] else [])
  (fun w => Ok (if sg && w_available w && (w_pos w =? base) then w_put w b else w)).
Proof.
  intros [|] base b w HW; cbn [andb].
  - destruct (w_available w) eqn:AV; cbn [andb].
    2:{ rewrite unavail_take, w_adv_nil by auto. auto. }
    destruct HW as [HW|]; [|congruence]. destruct (Z.eqb_spec (w_pos w) base).
    + rewrite w_put_adv. replace (w_pos w - base) with 0 by lia. cbn [Z.to_nat skipn].
      unfold w_available in AV. destruct (w_cap w) as [[|c]|]; try discriminate; cbn [wtake firstn]; rewrite ?firstn_nil; auto.
    + rewrite skipn_all2, wtake_nil, w_adv_nil; auto. cbn [length]. lia.
  - rewrite skipn_nil, wtake_nil, w_adv_nil; auto.
Qed.

Lemma writes_count : forall n base, 0 <= n < 253 ->
  exists arr, writeVarInt n (zeros 10) = Ok (1, arr) /\ writes base (compact_size n) (write_one base 1 arr).
Proof.
  intros n base H. rewrite writeVarInt_spec by (rewrite ?compact_one by auto; cbn; lia).
  rewrite compact_one by auto. eexists. split; [reflexivity|]. apply writes_one; auto; lia.
Qed.

(** ** Whole transactions *)
Lemma segwit_has : forall t v, tx_holds t v -> Forall (fun i => len (si_wit i) < 253) (s_ins v) ->
  tx_isSegwit t = has_witness v.
Proof.
  intros t v (_ & _ & _ & _ & HI & _) W. unfold tx_isSegwit, has_witness.
  revert W. induction HI as [|a i la li H HI IH]; intros W; auto. inversion W; subst. cbn [existsb]. rewrite IH by auto. f_equal.
  destruct H as (_ & _ & _ & _ & _ & _ & _ & _ & (_ & _ & N & _)). unfold txin_isSegwit, witness_count. rewrite N.
  pose proof (len_nonneg _ (si_wit i)). rewrite u8_id by lia.
  destruct (Z.ltb_spec 0 (len (si_wit i))), (Z.eqb_spec (len (si_wit i)) 0); auto; lia.
Qed.

Definition in_fits (i : s_txin) : Prop := len (si_wit i) < 253.
Definition fits (v : s_tx) : Prop :=
  len (s_ins v) < 253 /\ len (s_outs v) < 253 /\ Forall in_fits (s_ins v).

Lemma flat_bound : forall {X} (wire : X -> list Z) (m : Z) xs, (forall x, In x xs -> len (wire x) <= m) -> 0 <= m ->
  len (flat_map wire xs) <= m * len xs.
Proof.
  intros X wire m. induction xs as [|x xs IH]; intros H M; cbn [flat_map]; [unfold len; cbn; lia|].
  rewrite len_app, len_cons. pose proof (H x (or_introl eq_refl)). specialize (IH (fun y I => H y (or_intror I)) M). lia.
Qed.

Section Whole.
Variables (t : tx) (v : s_tx).
Hypothesis H : tx_holds t v.
Hypothesis F : fits v.

Lemma ins_parts : Forall2 (fun e x => txin_length e = len (wire_in x) /\ serializes (txin_to_stream e) (wire_in x)) (t_ins t) (s_ins v).
Proof.
  destruct H as (_ & _ & _ & _ & FI & _). eapply F2_impl; [|exact FI]. intros a i Ha.
  split; [apply txin_slices; auto|apply txin_ser; auto].
Qed.
Lemma outs_parts : Forall2 (fun e x => txout_length e = len (wire_out x) /\ serializes (txout_to_stream e) (wire_out x)) (t_outs t) (s_outs v).
Proof.
  destruct H as (_ & _ & _ & _ & _ & FO). eapply F2_impl; [|exact FO]. intros a i Ha.
  split; [apply txout_slices; auto|apply txout_ser; auto].
Qed.
Lemma wits_parts : Forall2 (fun e x => witness_length (ti_wit e) = len (wire_witness (si_wit x)) /\
    serializes (witness_to_stream (ti_wit e)) (wire_witness (si_wit x))) (t_ins t) (s_ins v).
Proof.
  destruct H as (_ & _ & _ & _ & FI & _). eapply F2_impl; [|exact FI].
  intros a i (_ & _ & _ & _ & _ & _ & _ & _ & W).
  split; [apply witness_length_wire; auto|apply witness_ser; auto].
Qed.
Lemma parts_bounds : len (flat_map wire_in (s_ins v)) <= 2^32 * len (s_ins v) /\
  len (flat_map wire_out (s_outs v)) <= 2^32 * len (s_outs v) /\
  len (flat_map (fun i => wire_witness (si_wit i)) (s_ins v)) <= 2^32 * len (s_ins v).
Proof.
  destruct H as (_ & _ & _ & _ & FI & FO).
  assert (XI : forall i, In i (s_ins v) -> exists a, txin_holds a i).
  { intros i I. clear -FI I. induction FI; [destruct I|]. destruct I as [<-|I]; eauto. }
  assert (XO : forall o, In o (s_outs v) -> exists a, txout_holds a o).
  { intros i I. clear -FO I. induction FO; [destruct I|]. destruct I as [<-|I]; eauto. }
  split; [|split]; apply flat_bound; try lia.
  - intros i I. destruct (XI i I) as (a & _ & P & _ & _ & _ & (_ & _ & _ & S) & _). rewrite len_wire_in by auto.
    pose proof (wire_bytes_small _ S). lia.
  - intros o I. destruct (XO o I) as (a & _ & _ & (_ & _ & _ & S)). rewrite len_wire_out. pose proof (wire_bytes_small _ S). lia.
  - intros i I. destruct (XI i I) as (a & _ & _ & _ & _ & _ & _ & _ & _ & W). pose proof (holds_count _ _ W). destruct W as (_ & _ & _ & _ & S).
    unfold wire_witness. rewrite len_app. pose proof (len_nonneg _ (si_wit i)).
    pose proof (compact_size_len (len (si_wit i)) ltac:(lia)). lia.
Qed.

Lemma counts : len (t_ins t) = len (s_ins v) /\ len (t_outs t) = len (s_outs v).
Proof.
  destruct H as (_ & _ & _ & _ & FI & FO). unfold len. rewrite (F2_length _ _ _ FI), (F2_length _ _ _ FO). auto.
Qed.

Lemma tx_serializes : serializes (tx_to_stream t) (wire_tx v).
Proof.
  pose proof parts_bounds as (B1 & B2 & B3). pose proof counts as (C1 & C2).
  pose proof (segwit_has t v H (proj2 (proj2 F))) as SG.
  destruct F as (F1 & F2 & _). pose proof (len_nonneg _ (s_ins v)). pose proof (len_nonneg _ (s_outs v)).
  pose proof (len_nonneg _ (flat_map wire_in (s_ins v))). pose proof (len_nonneg _ (flat_map wire_out (s_outs v))).
  pose proof (len_nonneg _ (flat_map (fun i => wire_witness (si_wit i)) (s_ins v))).
  assert (HV := H). destruct HV as (V & V1 & L & L1 & _ & _).
  set (sg := has_witness v) in *.
  assert (E : wire_tx v = le_bytes 4 (t_version t) ++ (if sg then [0] else []) ++ (if sg then [1] else []) ++
    compact_size (len (s_ins v)) ++ flat_map wire_in (s_ins v) ++ compact_size (len (s_outs v)) ++ flat_map wire_out (s_outs v) ++
    (if sg then flat_map (fun i => wire_witness (si_wit i)) (s_ins v) else []) ++ le_bytes 4 (t_lock t)).
  { unfold wire_tx. fold sg. rewrite V, L. destruct sg; unfold wire_segwit, wire_legacy, wire_list; rewrite <- !app_assoc; reflexivity. }
  rewrite E.
  set (b2 := b2z sg).
  assert (Lm : forall (b : Z), len (if sg then [b] else []) = b2) by (intros; subst b2; destruct sg; reflexivity).
  assert (Bb : 0 <= b2 <= 1) by (subst b2; destruct sg; cbn; lia).
  destruct (writes_count (len (s_ins v)) (4 + 2 * b2) ltac:(lia)) as (a1 & W1 & W1').
  set (base5 := 4 + 2 * b2 + 1 + len (flat_map wire_in (s_ins v))).
  destruct (writes_count (len (s_outs v)) base5 ltac:(lia)) as (a2 & W2 & W2').
  pose proof (writes_objs txin_length txin_to_stream wire_in _ _ ins_parts (4 + 2 * b2 + 1) ltac:(lia) ltac:(lia)) as [OI1 OI2].
  pose proof (writes_objs txout_length txout_to_stream wire_out _ _ outs_parts (base5 + 1) ltac:(lia) ltac:(lia)) as [OO1 OO2].
  set (base7 := base5 + 1 + len (flat_map wire_out (s_outs v))).
  pose proof (writes_objs (fun i => witness_length (ti_wit i)) (fun i => witness_to_stream (ti_wit i)) (fun i => wire_witness (si_wit i)) _ _ wits_parts
    base7 ltac:(lia) ltac:(lia)) as [OW1 OW2].
  set (ws := if sg then flat_map (fun i => wire_witness (si_wit i)) (s_ins v) else []).
  set (wit := fun w => if sg then write_objs (fun i => witness_length (ti_wit i)) (fun i => witness_to_stream (ti_wit i)) (t_ins t) base7 w else Ok (w, base7)).
  assert (OWs : (forall w w1 b, wit w = Ok (w1, b) -> b = base7 + len ws) /\ writes base7 ws (fun w => let! r := wit w in Ok (fst r))).
  { subst ws wit. destruct sg; [split; [exact OW1|exact OW2]|]. split.
    - intros w w1 b Q. injection Q as <- <-. rewrite len_nil. lia.
    - apply writes_nil. reflexivity. }
  destruct OWs as [OWs1 OWs2].
  eapply (writes_serializes _ (fun w0 =>
    let! w1 := write_loop 4 0 4 (le_bytes 4 (t_version t)) w0 in
    let! w2 := Ok (if sg && w_available w1 && (w_pos w1 =? 4) then w_put w1 0 else w1) in
    let! w3 := Ok (if sg && w_available w2 && (w_pos w2 =? 5) then w_put w2 1 else w2) in
    let! w4 := write_one (4 + 2 * b2) 1 a1 w3 in
    let! w5 := (let! r := write_objs txin_length txin_to_stream (t_ins t) (4 + 2 * b2 + 1) w4 in Ok (fst r)) in
    let! w6 := write_one base5 1 a2 w5 in
    let! w7 := (let! r := write_objs txout_length txout_to_stream (t_outs t) (base5 + 1) w6 in Ok (fst r)) in
    let! w8 := (let! r := wit w7 in Ok (fst r)) in
    write_loop 4 (base7 + len ws) 4 (le_bytes 4 (t_lock t)) w8)).
  - apply writes_seq; [apply writes_loop_all; [rewrite len_le_bytes; lia|rewrite le_bytes_length; lia]|].
    rewrite len_le_bytes. change (0 + Z.of_nat 4) with 4.
    apply (writes_seq 4 _ _ (fun w1 => Ok (if sg && w_available w1 && (w_pos w1 =? 4) then w_put w1 0 else w1))); [apply writes_mark|].
    rewrite Lm.
    apply (writes_seq (4 + b2) _ _ (fun w1 => Ok (if sg && w_available w1 && (w_pos w1 =? 5) then w_put w1 1 else w1))).
    { pose proof (writes_mark sg 5 1) as M. destruct sg; [exact M|]. apply writes_nil. reflexivity. }
    rewrite Lm. replace (4 + b2 + b2) with (4 + 2 * b2) by lia.
    apply writes_seq; [exact W1'|].
    rewrite compact_one by lia. change (len [len (s_ins v)]) with 1.
    apply (writes_seq _ _ _ (fun w4 => let! r := write_objs txin_length txin_to_stream (t_ins t) (4 + 2 * b2 + 1) w4 in Ok (fst r))); [exact OI2|]. fold base5.
    apply writes_seq; [exact W2'|]. rewrite (compact_one (len (s_outs v))) by lia. change (len [len (s_outs v)]) with 1.
    apply (writes_seq _ _ _ (fun w4 => let! r := write_objs txout_length txout_to_stream (t_outs t) (base5 + 1) w4 in Ok (fst r))); [exact OO2|]. fold base7.
    apply (writes_seq _ _ _ (fun w4 => let! r := wit w4 in Ok (fst r))); [exact OWs2|].
    apply writes_loop_all; [rewrite len_le_bytes; lia|rewrite le_bytes_length; lia].
  - intros cap off. unfold tx_to_stream. rewrite !int4 by (rewrite ?V, ?L; auto). cbn [bind].
    destruct (write_loop 4 0 4 _ _) as [w1|]; cbn [bind]; auto.
    rewrite SG. fold sg b2. rewrite C1, C2, W1. cbn [bind fst snd].
    destruct (write_one (4 + 2 * b2) 1 a1 _) as [w4|]; cbn [bind]; auto.
    destruct (write_objs txin_length txin_to_stream (t_ins t) (4 + 2 * b2 + 1) w4) as [[w5 b5]|] eqn:Q5; cbn [bind fst]; auto.
    rewrite (OI1 _ _ _ Q5). fold base5. rewrite W2. cbn [bind fst snd].
    destruct (write_one base5 1 a2 w5) as [w6|]; cbn [bind]; auto.
    destruct (write_objs txout_length txout_to_stream (t_outs t) (base5 + 1) w6) as [[w7 b7]|] eqn:Q7; cbn [bind fst]; auto.
    rewrite (OO1 _ _ _ Q7). fold base7. unfold wit.
    match goal with |- (let! _ := ?x in _) = _ => destruct x as [[w8 b8]|] eqn:Q8 end; cbn [bind fst]; auto.
    rewrite (OWs1 _ _ _ Q8). reflexivity.
Qed.

Lemma tx_length_wire : tx_length t = len (wire_tx v).
Proof.
  pose proof counts as (C1 & C2). pose proof (segwit_has t v H (proj2 (proj2 F))) as SG.
  destruct F as (F1 & F2 & _). pose proof (len_nonneg _ (s_ins v)). pose proof (len_nonneg _ (s_outs v)).
  unfold tx_length. rewrite SG, C1, C2, !lenVarInt_spec by lia.
  assert (EI := flat_len txin_length wire_in _ _ (F2_impl _ _ (fun a b X => proj1 X) _ _ ins_parts)).
  assert (EO := flat_len txout_length wire_out _ _ (F2_impl _ _ (fun a b X => proj1 X) _ _ outs_parts)).
  assert (EW := flat_len (fun i => witness_length (ti_wit i)) (fun i => wire_witness (si_wit i)) _ _ (F2_impl _ _ (fun a b X => proj1 X) _ _ wits_parts)).
  rewrite EO. unfold wire_tx.
  assert (S2 : forall f g l, zsum (map (fun i : txin => f i + g i) l) = zsum (map f l) + zsum (map g l)).
  { induction l; cbn [map zsum fold_right]; auto. fold (zsum (map f l)). fold (zsum (map g l)). fold (zsum (map (fun i => f i + g i) l)). lia. }
  assert (S0 : forall l : list txin, zsum (map (fun _ => 0) l) = 0) by (induction l; auto).
  destruct (has_witness v); unfold wire_segwit, wire_legacy, wire_list; rewrite !len_app, !len_le_bytes; rewrite S2, EI; [rewrite EW|rewrite S0];
    cbn [b2z]; rewrite ?len_cons, ?len_nil; lia.
Qed.
End Whole.
