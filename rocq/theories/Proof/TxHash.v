(** Transaction hashes and signature hashes. *)
From Coq Require Import Lia.
From Verif Require Import Base.Bytes Base.BytesFacts Model.Conversion Model.Stream Model.Script Model.Tx
  Spec.Codecs Spec.Wire Spec.Objects Spec.Sighash Proof.IntVarint Proof.StreamFacts Proof.ScriptFacts Proof.WitnessFacts Proof.TxIo Proof.IoProps Proof.TxSer.
Open Scope Z_scope.

Lemma hash_varint_ok : forall n, 0 <= n < 2^64 -> hash_varint n = Ok (compact_size n).
Proof.
  intros n H. unfold hash_varint.
  assert (L : len (compact_size n) <= 9).
  { unfold compact_size. repeat match goal with |- context [if ?c then _ else _] => destruct c end; rewrite ?len_cons, ?len_le_bytes, ?len_nil; lia. }
  rewrite (writeVarInt_spec n (zeros 10)) by (auto; change (len (zeros 10)) with 10; lia).
  cbn [bind fst snd]. unfold len at 1. rewrite Nat2Z.id, firstn_app, firstn_all, Nat.sub_diag. cbn [firstn]. now rewrite app_nil_r.
Qed.
Lemma hash_objs_ok : forall {E X} (ser : E -> serializer) (wire : X -> list Z) l xs,
  Forall2 (fun e x => serializes (ser e) (wire x)) l xs -> hash_objs ser l = Ok (flat_map wire xs).
Proof.
  intros E X ser wire l xs F. induction F as [|e x l xs H F IH]; cbn [hash_objs flat_map]; auto.
  unfold hash_obj. rewrite (serializes_all _ _ H). cbn [bind]. rewrite IH. reflexivity.
Qed.
Lemma le4 : forall x, intToLittleEndian x 4 = Ok (le_bytes 4 x).
Proof. intros. apply intToLittleEndian_ok. lia. Qed.
Lemma le8 : forall x, intToLittleEndian x 8 = Ok (le_bytes 8 x).
Proof. intros. apply intToLittleEndian_ok. lia. Qed.

Lemma holds_counts : forall t v, tx_holds t v -> len (t_ins t) = len (s_ins v) /\ len (t_outs t) = len (s_outs v).
Proof. intros t v (_ & _ & _ & _ & FI & FO). unfold len. rewrite (F2_length _ _ _ FI), (F2_length _ _ _ FO). auto. Qed.

Lemma tx_hash_data_ok : forall t v, tx_holds t v -> len (s_ins v) < 2^64 -> len (s_outs v) < 2^64 ->
  tx_hash_data t = Ok (wire_legacy v).
Proof.
  intros t v H NI NO. pose proof (len_nonneg _ (s_ins v)). pose proof (len_nonneg _ (s_outs v)).
  destruct (holds_counts _ _ H) as (CI & CO). destruct H as (V & _ & L & _ & FI & FO).
  unfold tx_hash_data. rewrite CI, CO, !le4, !hash_varint_ok by lia. cbn [bind].
  rewrite (hash_objs_ok _ wire_in _ (s_ins v)) by (eapply F2_impl; [|exact FI]; intros; apply txin_ser; auto). cbn [bind].
  rewrite (hash_objs_ok _ wire_out _ (s_outs v)) by (eapply F2_impl; [|exact FO]; intros; apply txout_ser; auto). cbn [bind].
  unfold wire_legacy, wire_list. rewrite V, L, <- !app_assoc. reflexivity.
Qed.
Lemma tx_whash_ok : forall dsha t v, tx_holds t v -> len (s_ins v) < 2^64 -> len (s_outs v) < 2^64 ->
  tx_whash dsha t = Ok (dsha (wire_segwit v)).
Proof.
  intros dsha t v H NI NO. pose proof (len_nonneg _ (s_ins v)). pose proof (len_nonneg _ (s_outs v)).
  destruct (holds_counts _ _ H) as (CI & CO). destruct H as (V & _ & L & _ & FI & FO).
  unfold tx_whash. rewrite CI, CO, !le4, !hash_varint_ok by lia. cbn [bind].
  rewrite (hash_objs_ok _ wire_in _ (s_ins v)) by (eapply F2_impl; [|exact FI]; intros; apply txin_ser; auto). cbn [bind].
  rewrite (hash_objs_ok _ wire_out _ (s_outs v)) by (eapply F2_impl; [|exact FO]; intros; apply txout_ser; auto). cbn [bind].
  rewrite (hash_objs_ok _ (fun i => wire_witness (si_wit i)) _ (s_ins v)).
  2:{ eapply F2_impl; [|exact FI]. intros a b (_ & _ & _ & _ & _ & _ & _ & _ & W). apply witness_ser; auto. }
  cbn [bind]. unfold wire_segwit, wire_list. rewrite V, L, <- !app_assoc. reflexivity.
Qed.

(** ** Legacy signature hash *)

Lemma assign_holds : forall d s bs, script_holds s bs -> script_holds (script_assign (script_copy d) s) bs.
Proof.
  intros d s bs (A & L & B & S). unfold script_assign, script_copy. pose proof (len_nonneg _ bs).
  destruct (Z.ltb_spec 0 (sc_len s)).
  - unfold script_holds. cbn [sc_arr sc_len]. auto.
  - assert (bs = []) by (destruct bs; auto; rewrite len_cons in L; pose proof (len_nonneg _ bs); lia). subst bs.
    destruct (Z.ltb_spec 0 (sc_len d)) as [G|G]; unfold script_clear, script_new; cbn [sc_arr sc_len sc_lenLen sc_status sc_parsed].
    + apply Z.ltb_lt in G. rewrite G. unfold script_holds. cbn [sc_arr sc_len]. rewrite H1. change (len (@nil Z)) with 0. repeat split; auto; lia || constructor.
    + change (0 <? 0) with false. cbv iota. unfold script_holds. cbn [sc_arr sc_len]. rewrite H1. change (len (@nil Z)) with 0. repeat split; auto; lia || constructor.
Qed.
Lemma copy_wit_holds : forall w els, witness_holds w els -> witness_holds (witness_copy w) els.
Proof.
  intros w els (A & L & N & B & S). unfold witness_copy. rewrite L. unfold witness_holds. cbn [wi_arr wi_len wi_num].
  destruct (Z.ltb_spec 0 (len (flat_map wire_bytes els))); auto.
  assert (E : flat_map wire_bytes els = []).
  { destruct (flat_map wire_bytes els) as [|x l]; auto. rewrite len_cons in *. pose proof (len_nonneg _ l). lia. }
  rewrite E in *. change (len (@nil Z)) with 0. repeat split; auto; lia.
Qed.
Lemma new_holds : script_holds script_new [].
Proof. unfold script_holds, script_new. cbn. repeat split; auto; try lia. constructor. Qed.

(** The inputs as signed, in terms of positions counted from [k]. *)
Fixpoint sig_ins (l : list s_txin) (k idx : nat) (code : list Z) : list s_txin :=
  match l with
  | [] => []
  | i :: r => with_sig i (if Nat.eqb k idx then code else []) (si_seq i) :: sig_ins r (S k) idx code
  end.
Lemma sig_ins_spec : forall l k idx code ty, signs_all ty ->
  map (fun p => let '(k, i) := p in
         if Nat.eqb k idx then with_sig i code (si_seq i)
         else with_sig i [] (if is_none ty || is_single ty then 0 else si_seq i))
      (combine (seq k (length l)) l) = sig_ins l k idx code.
Proof.
  intros l k idx code ty (A & B & C). revert k. induction l as [|i l IH]; intros k; cbn [length seq combine map sig_ins]; auto.
  rewrite IH, B, C. cbn [orb]. destruct (Nat.eqb k idx); reflexivity.
Qed.
Lemma sighash_ins_ok : forall l xs k idx s code, Forall2 txin_holds l xs -> script_holds s code ->
  hash_objs txin_to_stream (sighash_ins l (Z.of_nat k) (Z.of_nat idx) s) = Ok (flat_map wire_in (sig_ins xs k idx code)).
Proof.
  intros l xs k idx s code F H. revert k. induction F as [|t i l xs P F IH]; intros k; cbn [sighash_ins sig_ins hash_objs flat_map]; auto.
  set (sc := if Z.of_nat k =? Z.of_nat idx then s else script_new).
  assert (HS : script_holds sc (if Nat.eqb k idx then code else [])).
  { unfold sc. destruct (Nat.eqb_spec k idx).
    - subst. rewrite Z.eqb_refl. auto.
    - destruct (Z.eqb_spec (Z.of_nat k) (Z.of_nat idx)); [lia|]. apply new_holds. }
  destruct P as (P1 & P2 & P3 & P4 & P5 & P6 & P7 & P8 & P9).
  set (t' := mkTxin _ _ _ _ _ _ _).
  set (j := {| si_prev := si_prev i; si_vout := si_vout i; si_sig := if Nat.eqb k idx then code else []; si_seq := si_seq i; si_wit := si_wit i |}).
  assert (TH : txin_holds t' j).
  { unfold txin_holds, t', j. cbn [ti_hash ti_index ti_script ti_seq ti_wit si_prev si_vout si_sig si_seq si_wit].
    pose proof (assign_holds (ti_script t) _ _ HS). pose proof (copy_wit_holds _ _ P9). tauto. }
  unfold hash_obj at 1. rewrite (serializes_all _ _ (txin_ser _ _ TH)). cbn [bind].
  replace (Z.of_nat k + 1) with (Z.of_nat (S k)) by lia. rewrite IH. reflexivity.
Qed.
Lemma u8_id : forall x, 0 <= x < 256 -> u8 x = x.
Proof. intros. unfold u8. apply Z.mod_small. lia. Qed.
Lemma sig_ins_len : forall l k idx code, len (sig_ins l k idx code) = len l.
Proof. induction l; intros; cbn [sig_ins]; rewrite ?len_cons, ?IHl; auto. Qed.

(** What sigHash hashes for any type: the preimage of type ALL, with the type put in. *)
Definition all_preimage (v : s_tx) (idx : nat) (code : list Z) : list Z :=
  wire_legacy {| s_version := s_version v; s_ins := sig_ins (s_ins v) 0 idx code; s_outs := s_outs v; s_lock := s_lock v |}.
Lemma sigHash_any : forall dsha t v idx s code ty, tx_holds t v -> len (s_ins v) < 2^64 -> len (s_outs v) < 2^64 ->
  (idx < 256)%nat -> script_holds s code ->
  tx_sigHash dsha t (Z.of_nat idx) s ty = Ok (dsha (all_preimage v idx code ++ le_bytes 4 ty)).
Proof.
  intros dsha t v idx s code ty H NI NO II HS. pose proof (len_nonneg _ (s_ins v)). pose proof (len_nonneg _ (s_outs v)).
  destruct (holds_counts _ _ H) as (CI & CO). destruct H as (V & _ & L & _ & FI & FO).
  unfold tx_sigHash. rewrite CI, CO, !le4, !hash_varint_ok, u8_id by lia. cbn [bind].
  change 0 with (Z.of_nat 0) at 1. rewrite (sighash_ins_ok _ _ _ _ _ _ FI HS). cbn [bind].
  rewrite (hash_objs_ok _ wire_out _ (s_outs v)) by (eapply F2_impl; [|exact FO]; intros; apply txout_ser; auto). cbn [bind].
  unfold all_preimage, wire_legacy, wire_list. cbn [s_version s_ins s_outs s_lock]. rewrite sig_ins_len, V, L, <- !app_assoc. reflexivity.
Qed.
Lemma all_preimage_spec : forall v idx code ty, signs_all ty -> legacy_preimage v idx code ty = all_preimage v idx code ++ le_bytes 4 ty.
Proof.
  intros v idx code ty A. unfold legacy_preimage, legacy_body, all_preimage, signed_ins, signed_outs.
  rewrite (sig_ins_spec _ _ _ _ _ A). destruct A as (A1 & A2 & A3). rewrite A1, A2, A3. reflexivity.
Qed.
Lemma sigHash_ok : forall dsha t v idx s code ty, tx_holds t v -> len (s_ins v) < 2^64 -> len (s_outs v) < 2^64 ->
  (idx < 256)%nat -> script_holds s code -> signs_all ty ->
  tx_sigHash dsha t (Z.of_nat idx) s ty = Ok (dsha (legacy_preimage v idx code ty)).
Proof. intros. rewrite all_preimage_spec by auto. apply sigHash_any; auto. Qed.

(** ** BIP 143 *)
Lemma prevouts_ok : forall l xs, Forall2 txin_holds l xs -> prevouts_data l = Ok (flat_map outpoint xs).
Proof.
  intros l xs F. induction F as [|t i l xs P F IH]; cbn [prevouts_data flat_map]; auto.
  rewrite le4. cbn [bind]. rewrite IH. cbn [bind]. destruct P as (P1 & _ & _ & P4 & _). unfold outpoint. rewrite P1, P4, <- app_assoc. reflexivity.
Qed.
Lemma sequence_ok : forall l xs, Forall2 txin_holds l xs -> sequence_data l = Ok (flat_map (fun i => le_bytes 4 (si_seq i)) xs).
Proof.
  intros l xs F. induction F as [|t i l xs P F IH]; cbn [sequence_data flat_map]; auto.
  rewrite le4. cbn [bind]. rewrite IH. cbn [bind]. destruct P as (_ & _ & _ & _ & _ & _ & P7 & _). rewrite P7. reflexivity.
Qed.
Lemma F2_nth : forall {A B} (P : A -> B -> Prop) l xs k x, Forall2 P l xs -> nth_error xs k = Some x ->
  exists e, nth_error l k = Some e /\ P e x.
Proof.
  intros A B P l xs k x F. revert k. induction F; intros [|k] E; cbn in *; try discriminate.
  - injection E as <-. eauto.
  - eauto.
Qed.
Definition all143_preimage (dsha : list Z -> list Z) (v : s_tx) (i : s_txin) (code : list Z) (amount : Z) : list Z :=
  le_bytes 4 (s_version v) ++ dsha (flat_map outpoint (s_ins v)) ++ dsha (flat_map (fun i => le_bytes 4 (si_seq i)) (s_ins v))
  ++ outpoint i ++ wire_bytes code ++ le_bytes 8 amount ++ le_bytes 4 (si_seq i) ++ dsha (flat_map wire_out (s_outs v)) ++ le_bytes 4 (s_lock v).
Lemma sigHashSegwit_any : forall dsha t v idx i s code amount ty, tx_holds t v -> (idx < 256)%nat ->
  nth_error (s_ins v) idx = Some i -> script_holds s code ->
  tx_sigHashSegwit dsha t (Z.of_nat idx) s amount ty = Ok (dsha (all143_preimage dsha v i code amount ++ le_bytes 4 ty)).
Proof.
  intros dsha t v idx i s code amount ty H II E HS. destruct H as (V & _ & L & _ & FI & FO).
  unfold tx_sigHashSegwit, tx_hashPrevouts, tx_hashSequence, tx_hashOutputs. rewrite (prevouts_ok _ _ FI), (sequence_ok _ _ FI).
  rewrite u8_id, Nat2Z.id by lia. destruct (F2_nth _ _ _ _ _ FI E) as (e & -> & (P1 & _ & _ & P4 & _ & _ & P7 & _)).
  rewrite !le4, !le8. cbn [bind]. unfold hash_obj. rewrite (serializes_all _ _ (script_ser _ _ HS)). cbn [bind].
  rewrite (hash_objs_ok _ wire_out _ (s_outs v)) by (eapply F2_impl; [|exact FO]; intros; apply txout_ser; auto). cbn [bind].
  unfold all143_preimage, outpoint. rewrite V, L, P1, P4, P7, <- !app_assoc. reflexivity.
Qed.
Lemma sigHashSegwit_ok : forall dsha t v idx i s code amount ty, tx_holds t v -> (idx < 256)%nat ->
  nth_error (s_ins v) idx = Some i -> script_holds s code -> signs_all ty ->
  tx_sigHashSegwit dsha t (Z.of_nat idx) s amount ty = Ok (dsha (bip143_preimage dsha v idx i code amount ty)).
Proof.
  intros dsha t v idx i s code amount ty H II E HS (A1 & A2 & A3). rewrite (sigHashSegwit_any _ _ _ _ _ _ _ _ _ H II E HS).
  unfold bip143_preimage, bip143_body, all143_preimage. rewrite A1, A2, A3, <- !app_assoc. reflexivity.
Qed.
