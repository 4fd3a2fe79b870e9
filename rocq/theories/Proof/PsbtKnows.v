(** What an object knows about the inputs after a parse. *)
From Coq Require Import Lia.
From Verif Require Import Base.Bytes Base.BytesFacts Spec.Codecs Spec.Wire Spec.Objects Spec.Signature Spec.Point Spec.PSBT Spec.PSBTSign
  Model.Conversion Model.Stream Model.Script Model.Tx Model.Signature Model.Point Model.PSBT
  Proof.IntVarint Proof.ScriptFacts Proof.TxIo Proof.TxParse Proof.TxSer Proof.TxHash Proof.TxProps Proof.SigProps Proof.PointProps Proof.PsbtFacts Proof.PsbtParse Proof.PsbtWrite Proof.PsbtEntries Proof.PsbtInv Proof.PsbtProps Proof.PsbtMore.
Open Scope Z_scope.

Section Knows.
Variable dsha : list Z -> list Z.
Variable garbage : list Z.
Notation in_entry := (in_entry dsha garbage).

Definition settled (m : inmeta) : Prop := to_status (im_out m) = DONE /\ sc_status (im_redeem m) = DONE /\ sc_status (im_witness m) = DONE.
Lemma holds_len : forall s bs, script_holds s bs -> sc_len s = len (sc_arr s).
Proof. intros s bs (-> & -> & _). reflexivity. Qed.
Lemma parsed_holds : forall b, bytes_ok b -> len b < 2^31 -> script_holds (parsed_script b) b.
Proof. intros b B L. repeat split; auto. Qed.
Lemma assign_parsed : forall d b0 b, script_holds d b0 -> bytes_ok b -> len b < 2^31 -> script_holds (script_assign d (parsed_script b)) b.
Proof.
  intros d b0 b (DA & DL & _) B L. unfold script_assign. cbn [parsed_script sc_len sc_arr]. pose proof (len_nonneg _ b). destruct (Z.ltb_spec 0 (len b)); [repeat split; auto|].
  assert (b = []) by (destruct b; auto; rewrite len_cons in *; pose proof (len_nonneg _ b); lia). subst b.
  unfold script_clear. cbn [sc_len sc_arr]. pose proof (len_nonneg _ b0). destruct (Z.ltb_spec 0 (sc_len d)) as [|Q]; [repeat split; auto|].
  assert (X : b0 = []) by (clear - Q DL; destruct b0 as [|c t]; auto; rewrite DL, len_cons in Q; pose proof (len_nonneg _ t); lia). rewrite X in *. unfold script_holds. cbn [sc_arr sc_len]. rewrite DA, DL. repeat split; auto.
Qed.
Lemma entry_known : forall t i u e u' m, txin_holds t i -> entry_tells dsha i u e u' -> pair_ok e -> input_holds m u -> settled m ->
  exists m' res, in_entry m t e = Ok (m', res) /\ 0 <= res /\ input_holds m' u' /\ settled m'.
Proof.
  intros t i u e u' m TI ET (NE & BK & LK & BV & LV) (H1 & H2 & H3 & H4 & H5) (S1 & S2 & S3).
  destruct ET as [e w o PE SP NO|e o UE|e g PA PO LS|b|b|c e OC PF LD|c k b CK LKK]; cbn [fst snd] in *.
  - destruct PE as (-> & (TO & WO & NI & NOu & LW & PL)). destruct SP as (D & VO). pose proof TI as (T1 & _ & _ & T4 & T5 & _).
    destruct (entry_prev_wire dsha garbage m t w TO WO NI NOu BV LV PL) as (o' & N' & E); [congruence|lia|]. rewrite T4 in N'. assert (o' = o) by congruence. subst o'.
    eexists _, _. split; [exact E|]. split; [lia|]. assert (OO : out_ok o) by (destruct TO as (_ & _ & _ & TO); rewrite Forall_forall in TO; apply TO; apply (nth_error_In _ _ NO)).
    split; [|split; auto]. split; [|auto]. destruct OO as (O1 & O2 & O3). split; [reflexivity|]. split; [exact O1|]. apply (assign_parsed _ _ _ (proj2 (proj2 H1))); auto.
  - destruct UE as (-> & OO & PL & LW). rewrite (entry_utxo dsha garbage m t o S1 (holds_len _ _ (proj2 (proj2 H1))) OO PL BV LV).
    eexists _, _. split; [reflexivity|]. split; [lia|]. split; [|split; auto]. split; [|auto]. destruct OO as (O1 & O2 & O3). split; [reflexivity|]. split; [exact O1|]. apply parsed_holds; auto.
  - destruct PA as (ty & TY & PT). assert (LM : len (im_sigs m) = len (sp_sigs u)) by (unfold len; rewrite (F2_len _ _ _ H5); reflexivity).
    destruct (entry_sig_t dsha garbage ty m t g e TY PT PO ltac:(lia)) as (x & XH & E). eexists _, _. split; [exact E|]. split; [lia|]. split; [|split; auto].
    split; [exact H1|]. split; [exact H2|]. split; [exact H3|]. split; [exact H4|]. cbn [im_sigs add_sigs sp_sigs]. apply Forall2_app; auto.
  - unfold PsbtEntries.in_entry. cbn [fst snd]. rewrite first_byte by (try reflexivity; auto). rewrite bind_ok. cbv beta. unfold add_input. cbv zeta.
    change (4 =? 0) with false. change (4 =? 1) with false. change (4 =? 2) with false. change (4 =? 4) with true. cbv iota. rewrite one_byte by lia. change (negb (2 =? 2)) with false. cbv iota.
    pose proof (script_parse_wire (im_redeem m) b [] S2 (holds_len _ _ H2) BV LV) as E. rewrite app_nil_r in E. rewrite E, bind_ok. cbn [fst snd].
    eexists _, _. split; [reflexivity|]. split; [lia|]. split; [|split; auto]. split; [exact H1|]. split; [apply parsed_holds; auto|]. split; [exact H3|]. split; [exact H4|exact H5].
  - unfold PsbtEntries.in_entry. cbn [fst snd]. rewrite first_byte by (try reflexivity; auto). rewrite bind_ok. cbv beta. unfold add_input. cbv zeta.
    change (5 =? 0) with false. change (5 =? 1) with false. change (5 =? 2) with false. change (5 =? 4) with false. change (5 =? 5) with true. cbv iota. rewrite one_byte by lia. change (negb (2 =? 2)) with false. cbv iota.
    pose proof (script_parse_wire (im_witness m) b [] S3 (holds_len _ _ H3) BV LV) as E. rewrite app_nil_r in E. rewrite E, bind_ok. cbn [fst snd].
    eexists _, _. split; [reflexivity|]. split; [lia|]. split; [|split; auto]. split; [exact H1|]. split; [exact H2|]. split; [apply parsed_holds; auto|]. split; [exact H4|exact H5].
  - destruct PF as (B & F & PP & LP & NP). pose proof (sec_33_65 c (dv_x e) (dv_y e)) as SL. unfold PsbtEntries.in_entry. cbn [fst snd]. rewrite first_byte by (auto; rewrite len_cons; lia). rewrite bind_ok. cbv beta. unfold add_input. cbv zeta.
    change (6 =? 0) with false. change (6 =? 1) with false. change (6 =? 2) with false. change (6 =? 4) with false. change (6 =? 5) with false. change (6 =? 6) with true. cbv iota.
    assert (LM : len (im_ders m) = len (sp_ders u)) by (unfold len; rewrite (F2_len _ _ _ H4); reflexivity).
    rewrite deriv_ok by (auto; lia). rewrite bind_ok. cbn [fst snd]. eexists _, _. split; [reflexivity|]. split; [lia|]. split; [|split; auto]. split; [exact H1|]. split; [exact H2|]. split; [exact H3|]. split; [|exact H5].
    cbn [im_ders add_der sp_ders]. apply Forall2_app; auto. repeat constructor; auto; apply OC.
  - assert (CB : byte_ok c) by (inversion BK; auto). unfold byte_ok in CB. unfold PsbtEntries.in_entry. cbn [fst snd]. rewrite first_byte by (auto; rewrite len_cons; lia). rewrite bind_ok. cbv beta. unfold add_input. cbv zeta.
    assert (Q : (c =? 0) = false /\ (c =? 1) = false /\ (c =? 2) = false /\ (c =? 4) = false /\ (c =? 5) = false /\ (c =? 6) = false) by (repeat split; apply Z.eqb_neq; lia).
    destruct Q as (-> & -> & -> & -> & -> & ->). eexists _, _. split; [reflexivity|]. split; [lia|]. split; [|split; auto]. split; [exact H1|auto].
Qed.
Lemma map_known : forall t i u l u', map_tells dsha i u l u' -> txin_holds t i -> Forall pair_ok l -> forall m, input_holds m u -> settled m ->
  exists m', pairs_on (fun x => in_entry x t) m l = Ok (m', true) /\ input_holds m' u'.
Proof.
  intros t i u l u' T TI. induction T as [u|u e u1 l u2 E T IH]; intros P m H S; [exists m; auto|]. apply Forall_cons_iff in P as [P1 P2].
  destruct (entry_known t i u e u1 m TI E P1 H S) as (m1 & res & EE & R & H1 & S1). destruct (IH P2 m1 H1 S1) as (m' & EM & H'). exists m'. split; [|exact H'].
  cbn [pairs_on]. rewrite EE, bind_ok. cbn [fst snd]. destruct (Z.ltb_spec res 0); [lia|]. exact EM.
Qed.
Lemma new_known : input_holds im_new nothing_known /\ settled im_new.
Proof. split; [|repeat split]. repeat split; try (constructor); cbn; try lia; reflexivity. Qed.
Lemma maps_known : forall is maps us, maps_tell dsha is maps us -> forall ts, Forall2 txin_holds ts is -> Forall (Forall pair_ok) maps ->
  exists ins, ins_run dsha garbage (repeat im_new (length is)) ts maps = Ok (ins, true) /\ Forall2 input_holds ins us.
Proof.
  induction 1 as [|i is m ms u us M T IH]; intros ts F P.
  - inversion F; subst. exists []. split; [reflexivity|constructor].
  - inversion F as [|t ? ts' ? TI F']; subst. apply Forall_cons_iff in P as [P1 P2]. destruct (IH ts' F' P2) as (ins & RI & HI).
    destruct (map_known t i nothing_known m u M TI P1 im_new (proj1 new_known) (proj2 new_known)) as (m' & EM & H'). exists (m' :: ins). split; [|constructor; auto].
    cbn [length repeat PsbtEntries.ins_run]. rewrite EM, bind_ok. cbn [fst snd]. rewrite RI, bind_ok. reflexivity.
Qed.
Lemma maps_tell_len : forall is maps us, maps_tell dsha is maps us -> length us = length is.
Proof. induction 1; cbn [length]; auto. Qed.
Lemma outs_run_len : forall xs mo ys b, PsbtEntries.outs_run garbage xs mo = Ok (ys, b) -> length xs = length mo -> length ys = length xs.
Proof.
  induction xs as [|x xs IH]; intros mo ys b E L; destruct mo as [|l mo]; try discriminate; cbn [PsbtEntries.outs_run] in E; [injection E as <- <-; reflexivity|].
  destruct (pairs_on _ x l) as [[y c]|]; [|discriminate]. rewrite bind_ok in E. cbn [fst snd] in E. injection L as L. destruct c; [|injection E as <- <-; reflexivity].
  destruct (PsbtEntries.outs_run garbage xs mo) as [[zs d]|] eqn:R; [|discriminate]. rewrite bind_ok in E. cbn [fst snd] in E. injection E as <- <-. cbn [length]. rewrite (IH _ _ _ R L). reflexivity.
Qed.
Theorem parsed_knows : forall q v global mi mo us rest p n r, reusable dsha garbage q -> psbt_tx v -> fits_maps v global mi mo -> maps_tell dsha (s_ins v) mi us ->
  psbt_parse dsha garbage q (wire_psbt (wire_tx v) global (mi ++ mo) ++ rest) = Ok (p, n, r) -> ps_status p = DONE -> psbt_knows p v us.
Proof.
  intros q v global mi mo us rest p n r RQ V FM T E D. destruct (whole_done dsha garbage q v global mi mo rest p n r (reusable_ready dsha garbage q RQ) V FM E D) as (ET & ins & outs & EI & EO & RI & RO).
  pose proof V as ((TO & WO & _) & _). assert (HT : tx_holds (parsed_tx v) v) by (apply parsed_tx_holds; auto). pose proof FM as (LI & LO & _ & PM). apply Forall_app in PM as [PM _].
  destruct (maps_known _ _ _ T (t_ins (parsed_tx v))) as (ins' & RI' & H); [apply HT|exact PM|]. rewrite RI in RI'. injection RI' as <-.
  split; [rewrite ET; exact HT|]. split; [exists outs; split; [exact EO|]|].
  - rewrite (outs_run_len _ _ _ _ RO), repeat_length; [reflexivity|]. rewrite repeat_length. unfold len in LO. lia.
  - exists ins. split; [exact EI|]. split; [apply (maps_tell_len _ _ _ T)|exact H].
Qed.
End Knows.
