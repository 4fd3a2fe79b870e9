(** Partially signed transactions: round trip, overriding, ownership, memory. *)
From Coq Require Import Lia.
From Verif Require Import Base.Bytes Base.BytesFacts Spec.Codecs Spec.Wire Spec.Objects Spec.Signature Spec.Point Spec.PSBT
  Model.Conversion Model.Stream Model.Script Model.Tx Model.Signature Model.Point Model.PSBT
  Proof.IntVarint Proof.StreamFacts Proof.ScriptFacts Proof.TxIo Proof.TxParse Proof.TxHash Proof.TxProps Proof.SigProps Proof.PsbtFacts Proof.PsbtParse Proof.PsbtWrite Proof.PsbtEntries Proof.PsbtInv Proof.PsbtProps.
Open Scope Z_scope.

Section More.
Variable dsha : list Z -> list Z.
Variable garbage : list Z.
Notation parse := (psbt_parse dsha garbage).
Notation in_entry := (in_entry dsha garbage).
Notation out_entry := (out_entry garbage).
Notation ins_run := (ins_run dsha garbage).
Notation outs_run := (outs_run garbage).
Notation reusable := (reusable dsha garbage).

(** ** Objects that are parsed again *)
Lemma parse_shaped : forall p st p' n r, ps_status p = DONE -> parse p st = Ok (p', n, r) -> ps_status p' = DONE -> shaped p'.
Proof.
  intros p st p' n r D H S. unfold psbt_parse in H. rewrite D in H. destruct (psbt_start p) as [q|] eqn:Q; [|discriminate]. rewrite bind_ok in H. cbv beta in H.
  eapply body_between in H as [_ P]; [destruct (P S); auto|eapply start_between; eauto|congruence].
Qed.
Lemma reusable_ready : forall q, reusable q -> ready q.
Proof.
  induction 1 as [|q v global mi mo rest q' n r R IH V F E D]; [apply ready_new|].
  pose proof (whole_run dsha garbage q v global mi mo rest IH V F) as H. cbn zeta in H.
  split; [auto|]. split; [|apply shaped_release; eapply parse_shaped; [exact (proj1 IH)|exact E|auto]].
  match type of H with match ?x with _ => _ end => destruct x as [[m [|]]|] end.
  - destruct H as (a & K & _ & _ & _ & S2). rewrite E in K. injection K as <- _ _. auto.
  - destruct H as (a & b & c & K & S). rewrite E in K. injection K as <- _ _. congruence.
  - congruence.
Qed.

(** ** Signatures *)
Lemma sigs_run : forall l pairs x ti, Forall2 psig_any l pairs -> Forall psig_ok l -> len (im_sigs x) + len l <= 255 ->
  exists es, Forall2 psig_holds es l /\
    pairs_on (fun x => in_entry x ti) x pairs = Ok (mkInMeta (im_out x) (im_ders x) (im_redeem x) (im_witness x) (im_sigs x ++ es), true).
Proof.
  intros l pairs x ti F. revert x. induction F as [|g pair l pairs (t & T & P) F IH]; intros x O L.
  - exists []. split; [constructor|]. rewrite app_nil_r. destruct x; reflexivity.
  - apply Forall_cons_iff in O as [O1 O2]. rewrite len_cons in L. pose proof (len_nonneg _ l).
    destruct (entry_sig_t dsha garbage t x ti g pair T P O1 ltac:(lia)) as (e & HE & E).
    cbn [pairs_on]. rewrite E, bind_ok. cbn [fst snd]. change (1 <? 0) with false. cbv iota.
    set (x1 := mkInMeta _ _ _ _ _). destruct (IH x1 O2) as (es & HS & R); [unfold x1; cbn [im_sigs]; rewrite len_app; change (len [e]) with 1; lia|].
    exists (e :: es). split; [constructor; auto|]. rewrite R. unfold x1. cbn [im_out im_ders im_redeem im_witness im_sigs]. rewrite <- app_assoc. reflexivity.
Qed.
Lemma entry_full : forall t x ti g pair, 0 <= t < 256 -> psig_typed t g pair -> psig_ok g -> len (im_sigs x) = 255 -> in_entry x ti pair = UB.
Proof.
  intros t x i g pair T PP O L. destruct (pair_of_sig_t t g pair T PP O) as ((NE & BK & LK & BV & LV) & KL & VL).
  destruct PP as (d & D & ->). destruct O as (O & R & RS). cbn [fst snd] in *.
  assert (PL : 33 <= pt_length (g_comp g) <= 65) by (unfold pt_length; destruct (g_comp g); lia).
  destruct (der_parses sig_new _ _ d [t] eq_refl D R RS) as (sg & SP & SD & SH).
  unfold PsbtEntries.in_entry. cbn [fst snd]. rewrite first_byte by (auto; lia). rewrite bind_ok. cbv beta. unfold add_input. cbv zeta.
  change (2 =? 0) with false. change (2 =? 1) with false. change (2 =? 2) with true. cbv iota.
  rewrite key_length by (solve [apply sec_bytes_ok | lia | apply sec_33_65]).
  rewrite (wire_short (2 :: _)) by lia. cbn [skipn]. rewrite parse_point_ok, bind_ok by auto. cbv beta. cbn [pt_status pstatus_eqb negb].
  rewrite wire_short by lia. cbn [skipn]. rewrite SP, bind_ok. cbv beta zeta. cbn [fst]. rewrite SD. cbn [pstatus_eqb negb].
  unfold grow. rewrite L. reflexivity.
Qed.
Lemma sigs_overflow : forall l pairs x ti, Forall2 psig_any l pairs -> Forall psig_ok l -> len (im_sigs x) <= 255 -> 256 <= len (im_sigs x) + len l ->
  pairs_on (fun x => in_entry x ti) x pairs = UB.
Proof.
  intros l pairs x ti F. revert x. induction F as [|g pair l pairs (t & T & P) F IH]; intros x O L G.
  - rewrite len_nil in G. lia.
  - apply Forall_cons_iff in O as [O1 O2]. rewrite len_cons in G. cbn [pairs_on]. destruct (Z.eq_dec (len (im_sigs x)) 255) as [E|NE].
    + rewrite (entry_full t x ti g pair T P O1 E). reflexivity.
    + destruct (entry_sig_t dsha garbage t x ti g pair T P O1 ltac:(lia)) as (e & HE & E). rewrite E, bind_ok. cbn [fst snd]. change (1 <? 0) with false. cbv iota.
      apply IH; auto; cbn [im_sigs]; rewrite len_app; change (len [e]) with 1; lia.
Qed.
Definition bare (m : inmeta) : Prop := im_out m = txout_new /\ im_ders m = [] /\ im_redeem m = script_new /\ im_witness m = script_new.
Lemma ins_sigs : forall sigs maps, Forall2 (Forall2 psig_any) sigs maps -> Forall (Forall psig_ok) sigs -> Forall (fun l => len l <= 255) sigs ->
  forall is, length is = length sigs ->
  exists ins, ins_run (repeat im_new (length sigs)) is maps = Ok (ins, true) /\
    Forall2 (fun m l => Forall2 psig_holds (im_sigs m) l) ins sigs /\ Forall bare ins.
Proof.
  induction 1 as [|l m sigs maps F FS IH]; intros O L is LI.
  - destruct is; [|discriminate]. exists []. repeat split; constructor.
  - destruct is as [|i is]; [discriminate|]. injection LI as LI. apply Forall_cons_iff in O as [O1 O2]. apply Forall_cons_iff in L as [L1 L2].
    destruct (sigs_run l m im_new i F O1 ltac:(change (len (im_sigs im_new)) with 0; lia)) as (es & HS & R).
    destruct (IH O2 L2 is LI) as (ins & RI & HI & BI). cbn [length repeat PsbtEntries.ins_run]. rewrite R, bind_ok. cbn [fst snd]. rewrite RI, bind_ok. cbn [fst snd].
    eexists. split; [reflexivity|]. split; constructor; auto. repeat split.
Qed.
Lemma outs_empty : forall n, outs_run (repeat om_new n) (repeat [] n) = Ok (repeat om_new n, true).
Proof. induction n as [|n IH]; [reflexivity|]. cbn [repeat PsbtEntries.outs_run pairs_on]. rewrite bind_ok. cbn [fst snd]. rewrite IH. reflexivity. Qed.
Lemma any_pairs_ok : forall sigs maps, Forall2 (Forall2 psig_any) sigs maps -> Forall (Forall psig_ok) sigs -> Forall (Forall pair_ok) maps.
Proof.
  induction 1 as [|l m sigs maps F FS IH]; intros O; constructor; apply Forall_cons_iff in O as [O1 O2]; auto.
  clear -F O1. induction F as [|g pair l m (t & T & P) F IH]; constructor; apply Forall_cons_iff in O1 as [O1 O2]; auto.
  apply (pair_of_sig_t t g pair T P O1).
Qed.
Lemma empties_ok : forall n, Forall (Forall pair_ok) (repeat [] n).
Proof. induction n; constructor; auto. Qed.
Lemma len_repeat : forall {A} (a : A) n, len (repeat a n) = Z.of_nat n.
Proof. intros. unfold len. rewrite repeat_length. reflexivity. Qed.

Lemma sigs_parsed : forall q v sigs maps rest, reusable q -> psbt_tx v -> length sigs = length (s_ins v) -> Forall (Forall psig_ok) sigs ->
  Forall (fun l => len l <= 255) sigs -> Forall2 (Forall2 psig_any) sigs maps ->
  let w := wire_psbt (wire_tx v) [] (maps ++ repeat [] (length (s_outs v))) in
  exists p, parse q (w ++ rest) = Ok (p, len w, rest) /\ ps_status p = DONE /\ psbt_holds p v sigs /\ only_sigs p.
Proof.
  intros q v sigs maps rest RQ V LS O L F w. pose proof (F2_len _ _ _ F) as LM.
  destruct (ins_sigs sigs maps F O L (t_ins (parsed_tx v))) as (ins & RI & HI & BI).
  { unfold parsed_tx; cbn [t_ins]; destruct (has_witness v); rewrite map_length; auto. }
  assert (FM : fits_maps v [] maps (repeat [] (length (s_outs v)))).
  { repeat split; [unfold len; lia|apply len_repeat|constructor|]. apply Forall_app. split; [eapply any_pairs_ok; eauto|apply empties_ok]. }
  rewrite LS in RI. destruct (whole_accepts dsha garbage q v [] maps _ rest ins _ (reusable_ready q RQ) V FM RI (outs_empty _)) as (p & E & D & T & EI & EO).
  exists p. split; [exact E|]. split; [auto|]. split.
  - split; [rewrite T; destruct V as ((TO & WO & _) & _); apply parsed_tx_holds; auto|]. exists ins, (repeat om_new (length (s_outs v))). rewrite repeat_length. auto.
  - split; [exists ins; auto|]. eexists. split; [exact EO|]. clear. induction (length (s_outs v)); constructor; auto.
Qed.
Lemma pair_any : forall g pair, psig_pair g pair -> psig_any g pair.
Proof. intros g pair H. exists 1. split; [lia|exact H]. Qed.
Lemma pairs_any : forall sigs maps, Forall2 (Forall2 psig_pair) sigs maps -> Forall2 (Forall2 psig_any) sigs maps.
Proof. induction 1 as [|l m sigs maps F FS IH]; constructor; auto. clear -F. induction F; constructor; auto. apply pair_any. auto. Qed.

Lemma carried_small : forall v, carried v -> small_tx v.
Proof. intros v (_ & W & NI & NO & _). split; [auto|]. split; [auto|]. eapply Forall_impl; [|exact W]. intros i (K & _). exact K. Qed.

Lemma psbt_round_trip : forall p q v sigs, psbt_holds p v sigs -> psbt_tx v -> Forall (Forall psig_ok) sigs -> Forall (fun l => len l <= 255) sigs -> reusable q ->
  exists maps, let w := wire_psbt (wire_tx v) [] (maps ++ repeat [] (length (s_outs v))) in
  Forall2 (Forall2 psig_pair) sigs maps /\ psbt_length p = Ok (len w) /\ serialize (psbt_to_stream p) (length w) 0 = Ok (len w, w) /\
  forall rest, exists p', parse q (w ++ rest) = Ok (p', len w, rest) /\ ps_status p' = DONE /\ psbt_holds p' v sigs /\ only_sigs p'.
Proof.
  intros p q v sigs H V O L RQ. pose proof V as ((TO & WO & NI & NO & LW & PL) & LE).
  destruct (psbt_writes p v sigs H (carried_small v (proj1 V)) O LE LW) as (maps & F & _ & LN & W). exists maps. cbv zeta in *. split; [auto|]. split; [auto|].
  split. { rewrite W by lia. rewrite Nat.sub_diag. cbn [zeros repeat]. rewrite app_nil_r. reflexivity. }
  intros rest. apply sigs_parsed; auto; [|apply pairs_any; auto]. destruct H as (_ & a & b & _ & _ & _ & K & _). exact K.
Qed.

(** What is not a signature is lost. *)
Lemma only_sigs_metas : forall p p', ps_metas p = ps_metas p' -> only_sigs p' -> only_sigs p.
Proof. intros p p' E ((a & A & B) & (c & C & D)). unfold ps_metas in E. injection E as E1 E2. split; [exists a|exists c]; split; auto; congruence. Qed.
Lemma fields_lost : forall p q v sigs, psbt_holds p v sigs -> psbt_tx v -> Forall (Forall psig_ok) sigs -> Forall (fun l => len l <= 255) sigs -> reusable q -> ~ only_sigs p ->
  exists w p', serialize (psbt_to_stream p) (length w) 0 = Ok (len w, w) /\ parse q w = Ok (p', len w, []) /\ ps_status p' = DONE /\ ps_metas p' <> ps_metas p.
Proof.
  intros p q v sigs H V O L RQ NO. destruct (psbt_round_trip p q v sigs H V O L RQ) as (maps & F & LN & S & P). specialize (P []). rewrite app_nil_r in P.
  destruct P as (p' & E & D & HH & OS). exists (wire_psbt (wire_tx v) [] (maps ++ repeat [] (length (s_outs v)))), p'. do 3 (split; [auto|]).
  intros K. apply NO. eapply only_sigs_metas; [symmetry; exact K|auto].
Qed.
(** The type of a signature is replaced by SIGHASH_ALL. *)
Lemma types_lost : forall q v sigs maps rest, reusable q -> psbt_tx v -> length sigs = length (s_ins v) -> Forall (Forall psig_ok) sigs ->
  Forall (fun l => len l <= 255) sigs -> Forall2 (Forall2 psig_any) sigs maps ->
  let w := wire_psbt (wire_tx v) [] (maps ++ repeat [] (length (s_outs v))) in
  exists p maps', parse q (w ++ rest) = Ok (p, len w, rest) /\ ps_status p = DONE /\ Forall2 (Forall2 psig_pair) sigs maps' /\
    let w' := wire_psbt (wire_tx v) [] (maps' ++ repeat [] (length (s_outs v))) in serialize (psbt_to_stream p) (length w') 0 = Ok (len w', w').
Proof.
  intros q v sigs maps rest RQ V LS O L F w. destruct (sigs_parsed q v sigs maps rest RQ V LS O L F) as (p & E & D & H & _).
  destruct (psbt_round_trip p q v sigs H V O L RQ) as (maps' & F' & LN & S & _). exists p, maps'. cbv zeta in *. auto.
Qed.
(** 256 sections: the counter wraps to zero. *)
Lemma sections_wrap : forall q v rest, ready q -> carried v -> 1 + len (s_ins v) + len (s_outs v) = 256 ->
  parse q (psbt_magic ++ wire_pair ([0], wire_tx v) ++ rest) = UB \/
  exists p n r, parse q (psbt_magic ++ wire_pair ([0], wire_tx v) ++ rest) = Ok (p, n, r) /\ ps_status p <> DONE.
Proof.
  intros q v rest RQ C SN. pose proof C as (TO & WO & NI & NO & LW & PL).
  pose proof (tx_parse_wire tx_new v [] eq_refl TO WO NI NO) as T. rewrite app_nil_r in T.
  pose proof (starts dsha garbage q (wire_tx v) rest (parsed_tx v) _ _ RQ (wire_tx_ok v C) LW PL T) as H. cbn [t_status parsed_tx] in H.
  assert (SO : u8 (sections_of (parsed_tx v)) = 0).
  { unfold sections_of, parsed_tx. cbn [t_ins t_outs]. unfold len in *. rewrite map_length. destruct (has_witness v); rewrite map_length; rewrite SN; reflexivity. }
  rewrite SO in H. destruct (psbt_loop _ _ _ _ _ _ _) as [[[[p6 n] st6] good]|]; [|left; exact H]. right. rewrite bind_ok in H.
  destruct good; cbn [negb] in H; [|do 3 eexists; split; [exact H|discriminate]]. rewrite Bool.andb_comm in H. change (0 <? 0) with false in H. cbn [andb] in H.
  do 3 eexists; split; [exact H|discriminate].
Qed.

(** ** A later entry overrides the checked one *)
Lemma assigned_len : forall a bs, sc_len a = len (sc_arr a) -> sc_len (script_assign a (parsed_script bs)) = len (sc_arr (script_assign a (parsed_script bs))).
Proof.
  intros a bs H. unfold script_assign. cbn [parsed_script sc_len sc_arr]. destruct (0 <? len bs); [reflexivity|].
  unfold script_clear. cbn [sc_arr sc_len]. destruct (0 <? sc_len a); cbn [sc_arr sc_len]; auto.
Qed.
Lemma override : forall q v i w e1 e2 o rest, reusable q -> psbt_tx v -> s_ins v = [i] -> prev_entry e1 w -> spends dsha i w -> utxo_entry e2 o ->
  let x := wire_psbt (wire_tx v) [] ([[e1; e2]] ++ repeat [] (length (s_outs v))) in
  exists p m, parse q (x ++ rest) = Ok (p, len x, rest) /\ ps_status p = DONE /\ ps_ins p = Some [m] /\ txout_holds (im_out m) o.
Proof.
  intros q v i w e1 e2 o rest RQ V EI (-> & CW) (S1 & S2) (-> & OO & PO & LO) x. pose proof CW as (TO & WO & NI & NO & LW & PL).
  assert (I0 : 0 <= si_vout i) by (destruct V as (((_ & _ & FI & _) & _) & _); rewrite EI in FI; apply Forall_inv in FI; destruct FI as (_ & _ & K & _); lia).
  assert (FM : fits_maps v [] [[([0], wire_tx w); ([1], wire_out o)]] (repeat [] (length (s_outs v)))).
  { repeat split; [rewrite EI; reflexivity|apply len_repeat|constructor|]. apply Forall_app. split; [|apply empties_ok]. constructor; [|constructor].
    constructor; [|constructor; [|constructor]]; (split; [discriminate|]; split; [apply byte1; lia|]; split; [reflexivity|]); cbn [snd]; split; auto; [apply wire_tx_ok; auto|apply wire_out_ok; auto]. }
  destruct (tx_ins_nth v 0 i ltac:(rewrite EI; reflexivity)) as (ti & NT & TH & TX).
  assert (ET : t_ins (parsed_tx v) = [ti]).
  { assert (LT : length (t_ins (parsed_tx v)) = 1%nat) by (unfold parsed_tx; cbn [t_ins]; destruct (has_witness v); rewrite map_length, EI; reflexivity).
    destruct (t_ins (parsed_tx v)) as [|a [|b l]]; try discriminate. injection NT as <-. reflexivity. }
  destruct (entry_prev_wire dsha garbage im_new ti w TO WO NI NO (wire_tx_ok w CW) LW PL) as (o' & N' & K); [congruence|lia|].
  assert (RI : ins_run (repeat im_new (length (s_ins v))) (t_ins (parsed_tx v)) [[([0], wire_tx w); ([1], wire_out o)]] =
    Ok ([mkInMeta (parsed_out o) [] script_new script_new []], true)).
  { rewrite EI, ET. cbn [length repeat PsbtEntries.ins_run pairs_on]. rewrite K, bind_ok. cbn [fst snd]. change (1 <? 0) with false. cbv iota.
    rewrite entry_utxo by (solve [reflexivity | auto | apply wire_out_ok; auto | cbn [im_out to_script]; apply assigned_len; reflexivity]).
    rewrite !bind_ok. reflexivity. }
  destruct (whole_accepts dsha garbage q v [] _ _ rest _ _ (reusable_ready q RQ) V FM RI (outs_empty _)) as (p & E & D & T & EP & EO).
  exists p. eexists. split; [exact E|]. split; [auto|]. split; [exact EP|]. cbn [im_out]. destruct OO as (O1 & O2 & O3). split; [reflexivity|]. split; [auto|].
  cbn [parsed_out to_script]. repeat split; auto.
Qed.

(** ** Ownership *)
Lemma mine_sound : forall derive p k, psbt_isMine derive p k = Ok true ->
  exists outs m d, ps_outs p = Some outs /\ 0 <= k /\ nth_error outs (Z.to_nat k) = Some m /\ In d (om_ders m) /\ derive (d_path d) = Ok (pt_xy (d_pub d)).
Proof.
  intros derive p k H. unfold psbt_isMine in H. destruct (at_ptr (ps_outs p) k) as [m|] eqn:A; [|discriminate]. rewrite bind_ok in H. cbv beta in H.
  unfold at_ptr in A. destruct (ps_outs p) as [outs|]; [|discriminate]. destruct (Z.ltb_spec k 0); [discriminate|].
  destruct (nth_error outs (Z.to_nat k)) as [m'|] eqn:N; [|discriminate]. injection A as <-. exists outs, m'.
  assert (G : forall l acc, fold_left (fun acc d => let! mine := acc in if d_set d then let! pub := derive (d_path d) in Ok (mine || list_eqb pub (pt_xy (d_pub d))) else UB) l acc = Ok true ->
    acc = Ok true \/ exists d, In d l /\ derive (d_path d) = Ok (pt_xy (d_pub d))).
  { induction l as [|d l IH]; intros acc K; [left; exact K|]. cbn [fold_left] in K. apply IH in K as [K|(d' & I & K)]; [|right; exists d'; split; [right; auto|auto]].
    destruct acc as [b|]; [|discriminate]. rewrite bind_ok in K. cbv beta in K. destruct (d_set d); [|discriminate]. destruct (derive (d_path d)) as [pub|] eqn:ED; [|discriminate].
    rewrite bind_ok in K. injection K as K. destruct b; [left; reflexivity|]. cbn [orb] in K. apply list_eqb_eq in K as ->. right. exists d. split; [left; reflexivity|auto]. }
  apply G in H as [H|(d & I & D)]; [discriminate|]. exists d. auto.
Qed.
Lemma outs_claim : forall n k e m, out_entry om_new e = Ok (m, 1) -> (k < n)%nat ->
  outs_run (repeat om_new n) (repeat [] k ++ [e] :: repeat [] (n - S k)) = Ok (repeat om_new k ++ m :: repeat om_new (n - S k), true).
Proof.
  intros n k. revert n. induction k as [|k IH]; intros [|n] e m E K; try lia; cbn [repeat app PsbtEntries.outs_run pairs_on].
  - rewrite E, !bind_ok. cbn [fst snd]. change (1 <? 0) with false. cbv iota. rewrite ?bind_ok. cbn [fst snd]. replace (S n - 1)%nat with n by lia. rewrite outs_empty. reflexivity.
  - rewrite bind_ok. cbn [fst snd]. change (S n - S (S k))%nat with (n - S k)%nat. rewrite (IH n e m E) by lia. reflexivity.
Qed.
Lemma ins_empty : forall n is, length is = n -> ins_run (repeat im_new n) is (repeat [] n) = Ok (repeat im_new n, true).
Proof. induction n as [|n IH]; intros [|i is] H; try discriminate; [reflexivity|]. cbn [repeat PsbtEntries.ins_run pairs_on]. rewrite bind_ok. cbn [fst snd]. rewrite IH by (injection H; auto). reflexivity. Qed.
Lemma mine_claimed : forall derive q v k c x y fp path rest, reusable q -> psbt_tx v -> 0 <= k < len (s_outs v) -> on_curve x y -> path_fine fp path ->
  derive path = Ok (coords x y) ->
  let w := wire_psbt (wire_tx v) [] (repeat [] (length (s_ins v)) ++ repeat [] (Z.to_nat k) ++ [out_deriv c x y fp path] :: repeat [] (length (s_outs v) - S (Z.to_nat k))) in
  exists p, parse q (w ++ rest) = Ok (p, len w, rest) /\ ps_status p = DONE /\ tx_holds (ps_tx p) v /\ psbt_isMine derive p k = Ok true.
Proof.
  intros derive q v k c x y fp path rest RQ V K OC (B & F & P & L & NL) DV w.
  pose proof (entry_out_deriv garbage om_new c x y fp path OC B F P L NL ltac:(reflexivity)) as E.
  assert (KN : (Z.to_nat k < length (s_outs v))%nat) by (unfold len in K; lia).
  pose proof (outs_claim (length (s_outs v)) (Z.to_nat k) _ _ E KN) as RO.
  set (mo := repeat [] (Z.to_nat k) ++ [out_deriv c x y fp path] :: repeat [] (length (s_outs v) - S (Z.to_nat k))) in *.
  assert (POK : pair_ok (out_deriv c x y fp path)).
  { pose proof (len_nonneg _ path). pose proof (sec_33_65 c x y). unfold out_deriv. split; [discriminate|]. cbn [fst snd]. rewrite len_cons, len_app, path_len. split; [constructor; [unfold byte_ok; lia|apply sec_bytes_ok]|].
    split; [lia|]. split; [apply bytes_ok_app; split; [auto|apply path_ok]|lia]. }
  assert (FM : fits_maps v [] (repeat [] (length (s_ins v))) mo).
  { repeat split; [apply len_repeat| |constructor|].
    - unfold mo. rewrite len_app, len_cons, !len_repeat. unfold len in *. lia.
    - apply Forall_app. split; [apply empties_ok|]. unfold mo. apply Forall_app. split; [apply empties_ok|]. constructor; [constructor; [auto|constructor]|apply empties_ok]. }
  assert (RI : ins_run (repeat im_new (length (s_ins v))) (t_ins (parsed_tx v)) (repeat [] (length (s_ins v))) = Ok (repeat im_new (length (s_ins v)), true)).
  { apply ins_empty. unfold parsed_tx; cbn [t_ins]; destruct (has_witness v); apply map_length. }
  destruct (whole_accepts dsha garbage q v [] _ _ rest _ _ (reusable_ready q RQ) V FM RI RO) as (p & EE & D & T & EP & EO).
  exists p. split; [exact EE|]. split; [auto|]. split; [rewrite T; destruct V as ((TO & WO & _) & _); apply parsed_tx_holds; auto|].
  unfold psbt_isMine. rewrite EO. unfold at_ptr. destruct (Z.ltb_spec k 0); [lia|]. rewrite nth_error_app2, repeat_length, Nat.sub_diag by (rewrite repeat_length; lia).
  cbn [nth_error]. rewrite bind_ok. cbn [om_ders om_new app fold_left d_set d_path d_pub pt_xy]. rewrite bind_ok, DV, bind_ok. cbn [orb].
  replace (list_eqb (coords x y) (coords x y)) with true by (symmetry; apply list_eqb_eq; reflexivity). reflexivity.
Qed.
Lemma mine_bounds : forall derive chunks p n r k, feed parse ps_status psbt_new chunks = Ok (p, n, r) -> ps_status p = DONE -> chunks <> [] ->
  ~ 0 <= k < len (t_outs (ps_tx p)) -> psbt_isMine derive p k = UB.
Proof.
  intros derive chunks p n r k H D NE K. destruct (feed_new dsha garbage chunks p n r H ltac:(congruence)) as [[[_ S]|[S _]]|(ins & outs & EI & EO & LI & LO & _)]; [congruence|congruence|].
  unfold psbt_isMine, at_ptr. rewrite EO. destruct (Z.ltb_spec k 0); [reflexivity|]. destruct (nth_error outs (Z.to_nat k)) eqn:N; [|reflexivity].
  assert (Z.to_nat k < length outs)%nat by (apply nth_error_Some; rewrite N; discriminate). unfold len in K. lia.
Qed.

(** ** Memory *)
Lemma destroy_ok : forall chunks p n r, feed parse ps_status psbt_new chunks = Ok (p, n, r) -> ps_status p <> FAILED -> psbt_destroy p = Ok tt.
Proof.
  intros chunks p n r H NF. destruct (feed_new dsha garbage chunks p n r H NF) as [[[T S]|[_ ->]]|S]; [| reflexivity | apply shaped_release; auto].
  unfold psbt_destroy, psbt_release, release. rewrite T. reflexivity.
Qed.
Lemma destroy_failed : forall tb rest t n r, bytes_ok tb -> len tb < 2^31 -> plain_length (len tb) -> tx_parse tx_new tb = Ok (t, n, r) -> t_status t <> DONE ->
  t_ins t <> [] \/ t_outs t <> [] ->
  exists p k, parse psbt_new (psbt_magic ++ wire_pair ([0], tb) ++ rest) = Ok (p, k, rest) /\ ps_status p = FAILED /\ psbt_destroy p = UB.
Proof.
  intros tb rest t n r B L PL T S NE. pose proof (starts dsha garbage psbt_new tb rest t n r ready_new B L PL T) as H.
  assert (X : exists p' n', parse psbt_new (psbt_magic ++ wire_pair ([0], tb) ++ rest) = Ok (p', n', rest) /\ ps_status p' = FAILED /\ ps_tx p' = t /\ ps_ins p' = None /\ ps_outs p' = None).
  { destruct (t_status t); [congruence| |]; destruct H as (p' & n' & E & S' & T' & I & O); exists p', n'; auto. }
  destruct X as (p' & n' & E & S' & T' & I & O). exists p', n'. split; [auto|]. split; [auto|]. unfold psbt_destroy, psbt_release, release. rewrite T', I, O.
  destruct (Z.ltb_spec 0 (len (t_ins t))); [reflexivity|]. rewrite bind_ok. destruct (Z.ltb_spec 0 (len (t_outs t))); [reflexivity|].
  exfalso. destruct NE as [NE|NE]; apply NE; [destruct (t_ins t)|destruct (t_outs t)]; auto; rewrite len_cons in *; match goal with l : list _ |- _ => pose proof (len_nonneg _ l) end; unfold len in *; lia.
Qed.
Lemma reuse_failed : forall chunks p n r b rest, feed parse ps_status psbt_new chunks = Ok (p, n, r) -> ps_status p = DONE -> t_ins (ps_tx p) <> [] -> b <> 112 ->
  exists p' k s, parse p (b :: rest) = Ok (p', k, s) /\ ps_status p' = FAILED /\ psbt_destroy p' = UB.
Proof.
  intros chunks p n r b rest H D NE NB. destruct (feed_new dsha garbage chunks p n r H ltac:(congruence)) as [[[_ S]|[_ ->]]|S]; [congruence|exfalso; apply NE; reflexivity|].
  unfold psbt_parse. rewrite D. unfold psbt_start. rewrite (shaped_release p S), !bind_ok. cbv zeta.
  assert (0 < len (t_ins (ps_tx p))) by (destruct (t_ins (ps_tx p)) as [|a l]; [congruence|rewrite len_cons; pose proof (len_nonneg _ l); lia]).
  unfold psbt_body. cbn [ps_parsed magic_loop]. change (0 <? 5) with true. cbv iota. change (aget psbt_magic 0) with (@Ok Z 112). rewrite bind_ok. cbv beta.
  destruct (Z.eqb_spec b 112); [congruence|]. rewrite bind_ok. cbv beta iota zeta. cbn [negb].
  do 3 eexists. split; [reflexivity|]. split; [reflexivity|]. unfold psbt_destroy, psbt_release, release. cbn [ps_end ps_tx ps_ins t_ins].
  destruct (Z.ltb_spec 0 (len (t_ins (ps_tx p)))); [reflexivity|lia].
Qed.
Lemma short_derivation : forall q v c x y val mi mo rest, reusable q -> psbt_tx v -> on_curve x y -> bytes_ok val -> len val < 4 ->
  fits_maps v [] ([(6 :: sec_bytes c x y, val)] :: mi) mo ->
  parse q (wire_psbt (wire_tx v) [] (([(6 :: sec_bytes c x y, val)] :: mi) ++ mo) ++ rest) = UB.
Proof.
  intros q v c x y val mi mo rest RQ V OC B L F. pose proof (whole_run dsha garbage q v [] _ mo rest (reusable_ready q RQ) V F) as H. cbn zeta in H.
  destruct F as (LI & _). destruct (s_ins v) as [|i is] eqn:EI; [rewrite len_cons in LI; pose proof (len_nonneg _ mi); rewrite len_nil in LI; lia|].
  destruct (tx_ins_nth v 0 i ltac:(rewrite EI; reflexivity)) as (ti & NT & _). destruct (t_ins (parsed_tx v)) as [|t0 ts]; [discriminate|].
  cbn [length repeat PsbtEntries.ins_run pairs_on] in H. unfold PsbtEntries.in_entry in H. cbn [fst snd] in H. pose proof (sec_33_65 c x y).
  rewrite first_byte in H by (solve [rewrite ?len_cons; lia | constructor; [unfold byte_ok; lia|apply sec_bytes_ok]]). rewrite bind_ok in H. unfold add_input in H. cbv zeta in H.
  change (6 =? 0) with false in H. change (6 =? 1) with false in H. change (6 =? 2) with false in H. change (6 =? 4) with false in H. change (6 =? 5) with false in H. change (6 =? 6) with true in H. cbv iota in H.
  rewrite deriv_short in H by (auto; lia). exact H.
Qed.
Lemma many_sigs : forall q v l m mi mo rest, reusable q -> psbt_tx v -> Forall2 psig_any l m -> Forall psig_ok l -> 256 <= len l ->
  fits_maps v [] (m :: mi) mo -> parse q (wire_psbt (wire_tx v) [] ((m :: mi) ++ mo) ++ rest) = UB.
Proof.
  intros q v l m mi mo rest RQ V FS O L F. pose proof (whole_run dsha garbage q v [] _ mo rest (reusable_ready q RQ) V F) as H. cbn zeta in H.
  destruct F as (LI & _). destruct (s_ins v) as [|i is] eqn:EI; [rewrite len_cons in LI; pose proof (len_nonneg _ mi); rewrite len_nil in LI; lia|].
  destruct (tx_ins_nth v 0 i ltac:(rewrite EI; reflexivity)) as (ti & NT & _). destruct (t_ins (parsed_tx v)) as [|t0 ts]; [discriminate|].
  cbn [length repeat PsbtEntries.ins_run] in H. rewrite (sigs_overflow l m im_new t0 FS O) in H by (change (len (im_sigs im_new)) with 0; lia). exact H.
Qed.

Lemma sections_wrap_any : forall q v rest, reusable q -> carried v -> 1 + len (s_ins v) + len (s_outs v) = 256 ->
  let w := [112; 115; 98; 116; 255] ++ wire_pair ([0], wire_tx v) ++ rest in
  parse q w = UB \/ exists p n r, parse q w = Ok (p, n, r) /\ ps_status p <> DONE.
Proof. intros q v rest RQ C SN w. exact (sections_wrap q v rest (reusable_ready q RQ) C SN). Qed.
Lemma prev_checked_any : forall p v global mi mo rest p' n r, reusable p -> psbt_tx v -> fits_maps v global mi mo ->
  parse p (wire_psbt (wire_tx v) global (mi ++ mo) ++ rest) = Ok (p', n, r) -> ps_status p' = DONE ->
  forall j i m e w, nth_error (s_ins v) j = Some i -> nth_error mi j = Some m -> In e m -> prev_entry e w -> spends dsha i w.
Proof. intros p v global mi mo rest p' n r RP. exact (prev_checked_wire dsha garbage p v global mi mo rest p' n r (reusable_ready p RP)). Qed.
Lemma prev_bytes_any : forall p v global mi mo rest p' n r, reusable p -> psbt_tx v -> fits_maps v global mi mo ->
  parse p (wire_psbt (wire_tx v) global (mi ++ mo) ++ rest) = Ok (p', n, r) -> ps_status p' = DONE ->
  forall j i m b, nth_error (s_ins v) j = Some i -> nth_error mi j = Some m -> In ([0], b) m -> plain_length (len b) ->
  exists t k s, tx_parse tx_new b = Ok (t, k, s) /\ t_status t = DONE /\ tx_hash dsha t = Ok (si_prev i) /\ si_vout i < len (t_outs t).
Proof. intros p v global mi mo rest p' n r RP. exact (prev_checked dsha garbage p v global mi mo rest p' n r (reusable_ready p RP)). Qed.
Lemma start_cut : forall t global maps k, (1 <= k <= 7)%nat -> exists p n r, parse psbt_new (firstn k (wire_psbt t global maps)) = Ok (p, n, r) /\ ps_status p = FAILED.
Proof.
  intros t global maps k K. replace (firstn k (wire_psbt t global maps)) with (firstn k [112; 115; 98; 116; 255; 1; 0]).
  - destruct k as [|[|[|[|[|[|[|[|k]]]]]]]]; try lia; do 3 eexists; split; vm_compute; reflexivity.
  - change (wire_psbt t global maps) with ([112; 115; 98; 116; 255; 1; 0] ++ wire_bytes t ++ wire_map global ++ flat_map wire_map maps).
    destruct k as [|[|[|[|[|[|[|[|k]]]]]]]]; try lia; reflexivity.
Qed.
End More.
