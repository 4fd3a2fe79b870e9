(** Pushing and signing. *)
From Coq Require Import Lia.
From Verif Require Import Base.Bytes Base.BytesFacts Model.Conversion Model.Stream Model.Script Model.Tx Model.Sign
  Spec.Codecs Spec.Wire Spec.Objects Spec.Sighash Proof.IntVarint Proof.StreamFacts Proof.ScriptFacts Proof.WitnessFacts Proof.TxIo Proof.IoProps Proof.TxSer Proof.TxHash Proof.WireInj.
Open Scope Z_scope.

Lemma size_le9 : forall n, 0 <= n < 2^64 -> 1 <= len (compact_size n) <= 9.
Proof.
  intros n H. unfold compact_size. repeat match goal with |- context [if ?c then _ else _] => destruct c end; rewrite ?len_cons, ?len_le_bytes, ?len_nil; lia.
Qed.
Lemma bytes_app : forall a b, bytes_ok a -> bytes_ok b -> bytes_ok (a ++ b).
Proof. intros. apply Forall_app; auto. Qed.

(** ** Script::push *)
Lemma push_holds : forall s bs d, script_holds s bs -> bytes_ok d -> len bs + len d <= 10000 -> script_holds (script_push s d) (bs ++ d).
Proof.
  intros s bs d (A & L & B & S) D M. unfold script_push. rewrite L. pose proof (len_nonneg _ bs). pose proof (len_nonneg _ d).
  unfold MAX_SCRIPT_SIZE. rewrite Z.gtb_ltb. destruct (Z.ltb_spec 10000 (len bs + len d)); [lia|].
  unfold script_holds. cbn [sc_arr sc_len]. rewrite A, len_app. repeat split; auto using bytes_app; lia.
Qed.
Lemma push_byte_holds : forall s bs c, script_holds s bs -> len bs + 1 <= 10000 -> script_holds (script_push_byte s c) (bs ++ [u8 c]).
Proof.
  intros s bs c H M. assert (E : script_push_byte s c = script_push s [u8 c]) by reflexivity. rewrite E. apply push_holds; auto.
  constructor; [|constructor]. unfold byte_ok, u8. apply Z.mod_pos_bound. lia.
Qed.
Lemma push_script_holds : forall s bs r code, script_holds s bs -> script_holds r code -> len bs + len (wire_bytes code) <= 10000 ->
  exists s', script_push_script s r = Ok s' /\ script_holds s' (bs ++ wire_bytes code).
Proof.
  intros s bs r code H R M. destruct (script_slices _ _ R) as (G & Lr). unfold script_push_script.
  assert (RR := R). destruct RR as (_ & Lc & B & S).
  pose proof (len_nonneg _ code). pose proof (size_le9 (len code) ltac:(lia)).
  rewrite Lr. pose proof (G (Z.to_nat (len (wire_bytes code))) 0 ltac:(lia)) as Q. cbn [Z.to_nat skipn] in Q.
  assert (FN : firstn (Z.to_nat (len (wire_bytes code))) (wire_bytes code) = wire_bytes code) by (apply firstn_all2; unfold len; lia).
  cbv zeta in Q. rewrite FN in Q. rewrite Q. cbn [bind snd].
  replace (Z.to_nat (len (wire_bytes code)) - length (wire_bytes code))%nat with 0%nat by (unfold len; lia).
  unfold zeros. cbn [repeat]. rewrite app_nil_r. eexists. split; [reflexivity|]. apply push_holds; auto.
  unfold wire_bytes. apply bytes_app; auto. apply compact_size_ok. lia.
Qed.

(** ** Witness::push *)
Lemma len_le_flat : forall els, len els <= len (flat_map wire_bytes els).
Proof. intros els. pose proof (flat_wire_length els). unfold len. lia. Qed.
Lemma wit_push_holds : forall w els d, witness_holds w els -> bytes_ok d -> len (flat_map wire_bytes (els ++ [d])) <= 10000 ->
  exists w', witness_push w d = Ok w' /\ witness_holds w' (els ++ [d]).
Proof.
  intros w els d (A & L & N & B & S) D M. rewrite flat_map_app in *. cbn [flat_map] in *. rewrite app_nil_r in *.
  pose proof (len_nonneg _ d). pose proof (len_nonneg _ (flat_map wire_bytes els)). pose proof (len_le_flat els). pose proof (len_nonneg _ els).
  assert (LW : len (wire_bytes d) = len (compact_size (len d)) + len d) by (unfold wire_bytes; apply len_app).
  rewrite len_app, LW in M. pose proof (len_nonneg _ (compact_size (len d))).
  unfold witness_push. rewrite L. rewrite lenVarInt_spec by lia. unfold MAX_SCRIPT_SIZE. rewrite Z.gtb_ltb.
  destruct (Z.ltb_spec 10000 (len (flat_map wire_bytes els) + len d + len (compact_size (len d)))); [lia|].
  rewrite writeVarInt_spec; [|lia|unfold zeros, len; rewrite repeat_length; lia]. cbn [bind snd].
  eexists. split; [reflexivity|]. unfold witness_holds. cbn [wi_arr wi_len wi_num].
  assert (Z0 : skipn (length (compact_size (len d))) (zeros (Z.to_nat (len (compact_size (len d))))) = []).
  { apply skipn_all2. unfold zeros, len. rewrite repeat_length. lia. }
  assert (A0 : (if len (flat_map wire_bytes els) =? 0 then [] else wi_arr w) = flat_map wire_bytes els).
  { rewrite A. destruct (Z.eqb_spec (len (flat_map wire_bytes els)) 0) as [E|]; auto. destruct (flat_map wire_bytes els) as [|x l]; auto. rewrite len_cons in E. pose proof (len_nonneg _ l). lia. }
  rewrite A0, flat_map_app. cbn [flat_map]. rewrite app_nil_r, len_app, LW. repeat split.
  - f_equal. unfold wire_bytes. rewrite <- app_assoc, Z0. reflexivity.
  - lia.
  - rewrite N, len_app. change (len [d]) with 1. unfold u32. apply Z.mod_small. lia.
  - apply Forall_app. split; auto.
  - lia.
Qed.
Lemma wit_push_script_holds : forall w els r code, witness_holds w els -> script_holds r code -> len (flat_map wire_bytes (els ++ [code])) <= 10000 ->
  exists w', witness_push_script w r = Ok w' /\ witness_holds w' (els ++ [code]).
Proof.
  intros w els r code H R M. destruct (script_slices _ _ R) as (G & Lr). unfold witness_push_script.
  assert (RR := R). destruct RR as (_ & Lc & B & S). pose proof (len_nonneg _ code). pose proof (size_le9 (len code) ltac:(lia)).
  rewrite Lr. pose proof (G (Z.to_nat (len (wire_bytes code))) 0 ltac:(lia)) as Q. cbn [Z.to_nat skipn] in Q.
  assert (FN : firstn (Z.to_nat (len (wire_bytes code))) (wire_bytes code) = wire_bytes code) by (apply firstn_all2; unfold len; lia).
  cbv zeta in Q. rewrite FN in Q. rewrite Q. cbn [bind].
  replace (Z.to_nat (len (wire_bytes code)) - length (wire_bytes code))%nat with 0%nat by (unfold len; lia).
  unfold zeros. cbn [repeat]. rewrite app_nil_r. unfold wire_bytes at 1.
  rewrite (readVarInt_form (len code)) by (apply compact_size_form; lia). cbn [bind].
  assert (LW : len (wire_bytes code) = len (compact_size (len code)) + len code) by (unfold wire_bytes; apply len_app).
  rewrite LW. destruct (Z.leb_spec 0 (len (compact_size (len code)) + len code - len code)); [|lia].
  destruct (Z.leb_spec (len (compact_size (len code)) + len code) (len (compact_size (len code)) + len code)); [|lia]. cbn [andb].
  assert (E : firstn (Z.to_nat (len code)) (skipn (Z.to_nat (len (compact_size (len code)) + len code - len code)) (wire_bytes code)) = code).
  { unfold wire_bytes. rewrite skipn_app, skipn_all2 by (unfold len; lia). cbn [app].
    replace (Z.to_nat (len (compact_size (len code)) + len code - len code) - length (compact_size (len code)))%nat with 0%nat by (unfold len; lia).
    cbn [skipn]. apply firstn_all2. unfold len. lia. }
  rewrite E. apply wit_push_holds; auto.
Qed.

(** ** Script templates *)
Lemma at_nth : forall s bs k, script_holds s bs -> at_ s k = nth (Z.to_nat k) bs (-1).
Proof. intros s bs k (A & _). unfold at_. now rewrite A. Qed.
Ltac eqs := repeat match goal with |- context [?a =? ?b] => destruct (Z.eqb_spec a b); cbn [andb] end.
Lemma wpkh_type : forall s bs, script_holds s bs ->
  (script_type_of s = P2WPKH <-> exists h, length h = 20%nat /\ bs = 0 :: 20 :: h).
Proof.
  intros s bs H. unfold script_type_of. rewrite !(at_nth _ _ _ H). destruct H as (_ & -> & _ & _). unfold len. split.
  - intros E. destruct (Z.eqb_spec (Z.of_nat (length bs)) 22) as [L|].
    + destruct bs as [|a [|b h]]; try discriminate. exists h.
      change (nth (Z.to_nat 0) (a :: b :: h) (-1)) with a in E. change (nth (Z.to_nat 1) (a :: b :: h) (-1)) with b in E.
      destruct (Z.eqb_spec (Z.of_nat (length (a :: b :: h))) 25); [lia|]. destruct (Z.eqb_spec (Z.of_nat (length (a :: b :: h))) 23); [lia|]. cbn [andb] in E.
      destruct (Z.eqb_spec a 0); cbn [andb] in E; [|destruct (Z.eqb_spec (Z.of_nat (length (a :: b :: h))) 34); [lia|discriminate]].
      destruct (Z.eqb_spec b 20); cbn [andb] in E; [|destruct (Z.eqb_spec (Z.of_nat (length (a :: b :: h))) 34); [lia|discriminate]].
      subst. cbn [length] in L. split; auto. lia.
    + exfalso. cbn [andb] in E. repeat match type of E with (if ?c then _ else _) = _ => destruct c end; discriminate.
  - intros (h & L & ->). cbn [length]. rewrite L. reflexivity.
Qed.

Tactic Notation "cut_list" integer(n) hyp(l) := do n (let a := fresh "a" in destruct l as [|a l]; [discriminate|]); destruct l; [|discriminate].
Lemma pkh_type : forall s bs, script_holds s bs ->
  (script_type_of s = P2PKH <-> exists h, length h = 20%nat /\ bs = key_code h).
Proof.
  intros s bs H. unfold script_type_of. rewrite !(at_nth _ _ _ H). destruct H as (_ & -> & _ & _). unfold len. split.
  - intros E. destruct (Z.eqb_spec (Z.of_nat (length bs)) 25) as [L|].
    + assert (LN : length bs = 25%nat) by lia. clear L. cut_list 25 bs.
      exists [a2; a3; a4; a5; a6; a7; a8; a9; a10; a11; a12; a13; a14; a15; a16; a17; a18; a19; a20; a21]. split; auto.
      cbv [nth Z.to_nat Pos.to_nat Pos.iter_op Nat.add] in E. cbn [length Z.of_nat] in E.
      match type of E with (if ?c then _ else _) = _ => destruct c eqn:Q; [|cbv [Z.of_nat Pos.of_succ_nat Pos.succ Z.eqb Pos.eqb andb] in E; discriminate] end.
      rewrite !andb_true_iff, !Z.eqb_eq in Q. destruct Q as (((((_ & ->) & ->) & ->) & ->) & ->). reflexivity.
    + exfalso. cbn [andb] in E. repeat match type of E with (if ?c then _ else _) = _ => destruct c end; discriminate.
  - intros (h & L & ->). unfold key_code. cut_list 20 h. reflexivity.
Qed.

(** ** Signing *)
Lemma set_in_holds : forall l xs k i j f, Forall2 txin_holds l xs -> nth_error xs k = Some i ->
  (forall t, txin_holds t i -> txin_holds (f t) j) -> exists l', set_in l k f = Ok l' /\ Forall2 txin_holds l' (update xs k j).
Proof.
  intros l xs k i j f F. revert k. induction F as [|t x l xs P F IH]; intros [|k] E K; cbn [nth_error] in E; try discriminate.
  - injection E as ->. eexists. split; [reflexivity|]. unfold update. cbn. constructor; auto.
  - destruct (IH k E K) as (l' & Q & G). cbn [set_in]. rewrite Q. cbn [bind]. eexists. split; [reflexivity|]. unfold update in *. cbn. constructor; auto.
Qed.
Lemma assign_holds' : forall d s bs old, script_holds d old -> script_holds s bs -> script_holds (script_assign d s) bs.
Proof.
  intros d s bs old (DA & DL & _) (A & L & B & S). unfold script_assign. pose proof (len_nonneg _ bs).
  destruct (Z.ltb_spec 0 (sc_len s)).
  - unfold script_holds. cbn [sc_arr sc_len]. auto.
  - assert (bs = []) by (destruct bs; auto; rewrite len_cons in L; pose proof (len_nonneg _ bs); lia). subst bs.
    unfold script_clear. cbn [sc_len]. destruct (Z.ltb_spec 0 (sc_len d)); cbn [sc_arr sc_lenLen sc_len]; unfold script_holds; cbn [sc_arr sc_len].
    + rewrite H1 in *. repeat split; auto; constructor.
    + assert (old = []) by (destruct old; auto; rewrite len_cons in DL; pose proof (len_nonneg _ old); lia). subst.
      rewrite H1 in *. rewrite H3. rewrite DL, H3. repeat split; auto; constructor.
Qed.
Lemma wit_assign_holds : forall d w els old, witness_holds d old -> witness_holds w els -> witness_holds (witness_assign d w) els.
Proof.
  intros d w els old (DA & DL & _) (A & L & N & B & S). unfold witness_assign, witness_holds. cbn [wi_arr wi_len wi_num witness_clear].
  pose proof (len_nonneg _ (flat_map wire_bytes els)).
  destruct (Z.ltb_spec 0 (wi_len w)); [repeat split; auto|].
  assert (E : flat_map wire_bytes els = []) by (destruct (flat_map wire_bytes els) as [|x l]; auto; rewrite len_cons in L; pose proof (len_nonneg _ l); lia).
  rewrite E in *. change (len (@nil Z)) with 0. repeat split; auto; try lia.
  destruct (Z.ltb_spec 0 (wi_len d)); auto. rewrite DA. destruct (flat_map wire_bytes old) as [|x l]; auto. rewrite len_cons in DL. pose proof (len_nonneg _ l). lia.
Qed.

Section Sign.
Variables (dsha hash160 sha256 : list Z -> list Z) (sec : list Z) (sign_der : list Z -> list Z).
Hypothesis H20 : forall m, length (hash160 m) = 20%nat /\ bytes_ok (hash160 m).
Hypothesis H32 : forall m, length (sha256 m) = 32%nat /\ bytes_ok (sha256 m).
Hypothesis SEC : bytes_ok sec /\ len sec <= 65.
Hypothesis DER : forall m, bytes_ok (sign_der (dsha m)) /\ len (sign_der (dsha m)) <= 72.

Definition p2pkh_code : list Z := [118; 169; 20] ++ hash160 sec ++ [136; 172].
Lemma p2pkh_holds : script_holds (script_of_pubkey hash160 sec P2PKH) p2pkh_code.
Proof.
  destruct (H20 sec) as (L & B). unfold script_holds, script_of_pubkey, script_with, p2pkh_code. cbn [sc_arr sc_len]. repeat split; auto.
  - apply bytes_app; [apply bytes_ok_bool; reflexivity|]. apply bytes_app; auto. apply bytes_ok_bool; reflexivity.
  - unfold len. rewrite !app_length, L. cbn. lia.
Qed.
Lemma p2wsh_holds : forall r code, script_holds r code -> script_holds (script_of_script hash160 sha256 r P2WSH) ([0; 32] ++ sha256 code).
Proof.
  intros r code (A & Lc & _ & S). destruct (H32 code) as (L & B). unfold script_holds, script_of_script, script_with. cbn [sc_arr sc_len].
  assert (F : firstn (Z.to_nat (sc_len r)) (sc_arr r) = code) by (rewrite A, Lc; unfold len; rewrite Nat2Z.id; apply firstn_all).
  rewrite F. repeat split; auto.
  - apply bytes_app; auto. apply bytes_ok_bool; reflexivity.
  - unfold len. rewrite !app_length, L. cbn. lia.
Qed.
Lemma len_wb : forall b, len b < 253 -> len (wire_bytes b) = 1 + len b.
Proof. intros b H. unfold wire_bytes. pose proof (len_nonneg _ b). rewrite compact_one, len_app by lia. reflexivity. Qed.
Lemma wb_le : forall b, len b < 2^31 -> len (wire_bytes b) <= 9 + len b.
Proof. intros b H. unfold wire_bytes. pose proof (len_nonneg _ b). rewrite len_app. pose proof (size_le9 (len b) ltac:(lia)). lia. Qed.

Definition nested (ty : script_type) : bool := script_type_eqb ty P2SH_P2WPKH || script_type_eqb ty P2SH_P2WSH.
(** What signing puts into the input; [wp] says that the script is a P2WPKH one. *)
Definition segwit_code (wp : bool) (code : list Z) : list Z := if wp then p2pkh_code else code.
Definition segwit_sig (wp : bool) (ty : script_type) (code : list Z) : list Z :=
  if nested ty then wire_bytes (if wp then code else [0; 32] ++ sha256 code) else [].
Definition segwit_wit (wp : bool) (der code : list Z) : list (list Z) :=
  (der ++ [1]) :: sec :: (if wp then [] else [code]).

Lemma sign_segwit : forall t v idx i r code amount ty sh wp, tx_holds t v -> (idx < 256)%nat -> nth_error (s_ins v) idx = Some i ->
  script_holds r code -> len code <= 9000 ->
  (wp = true <-> exists h, length h = 20%nat /\ code = 0 :: 20 :: h) ->
  exists t' der,
    der = sign_der (dsha (all143_preimage dsha v i (segwit_code wp code) amount ++ le_bytes 4 sh)) /\
    tx_signSegwitInput dsha hash160 sha256 sec sign_der t (Z.of_nat idx) r amount ty sh = Ok (t', der) /\
    tx_holds t' (with_in v idx (signed_in i (segwit_sig wp ty code) (segwit_wit wp der code))).
Proof.
  intros t v idx i r code amount ty sh wp H II E R C WP. rewrite <- (wpkh_type _ _ R) in WP.
  assert (WB : script_type_eqb (script_type_of r) P2WPKH = wp).
  { destruct wp; [destruct WP as (-> & _); auto|]. destruct (script_type_of r); auto. destruct WP as (_ & W). symmetry. apply W; auto. }
  unfold tx_signSegwitInput. rewrite WB.
  set (der := sign_der (dsha (all143_preimage dsha v i (segwit_code wp code) amount ++ le_bytes 4 sh))).
  assert (HH : (if wp then tx_sigHashSegwit dsha t (Z.of_nat idx) (script_of_pubkey hash160 sec P2PKH) amount sh
                else tx_sigHashSegwit dsha t (Z.of_nat idx) r amount sh) = Ok (dsha (all143_preimage dsha v i (segwit_code wp code) amount ++ le_bytes 4 sh))).
  { destruct wp; apply (sigHashSegwit_any dsha t v idx); auto. apply p2pkh_holds. }
  rewrite HH. cbn [bind]. fold der. destruct (DER (all143_preimage dsha v i (segwit_code wp code) amount ++ le_bytes 4 sh)) as (DB & DL). fold der in DB, DL.
  destruct SEC as (SB & SL). pose proof (len_nonneg _ der). pose proof (len_nonneg _ sec). pose proof (len_nonneg _ code).
  assert (SS : exists ssig, (if nested ty then if wp then script_push_script script_new r else script_push_script script_new (script_of_script hash160 sha256 r P2WSH)
                  else Ok script_new) = Ok ssig /\ script_holds ssig (segwit_sig wp ty code)).
  { unfold segwit_sig. destruct (nested ty); [|eexists; split; [reflexivity|apply new_holds]].
    destruct wp; (eapply (push_script_holds _ []); [apply new_holds| |]).
    - exact R.
    - rewrite len_nil. pose proof (wb_le code ltac:(lia)). lia.
    - apply p2wsh_holds; auto.
    - rewrite len_nil. assert (len ([0; 32] ++ sha256 code) = 34) by (unfold len; rewrite app_length, (proj1 (H32 code)); reflexivity). rewrite len_wb; lia. }
  destruct SS as (ssig & SS & SH). unfold nested in SS. rewrite SS. cbn [bind].
  assert (W0 : witness_holds witness_new []) by (unfold witness_holds; cbn; repeat split; auto; lia).
  unfold witness_push_sig, SIGHASH_ALL. destruct (Z.ltb_spec (len der) 75); [|lia]. change (u8 1) with 1.
  assert (D1B : bytes_ok (der ++ [1])) by (apply bytes_app; auto; apply bytes_ok_bool; reflexivity).
  assert (L1 : len (wire_bytes (der ++ [1])) = 2 + len der) by (rewrite len_wb; rewrite len_app; change (len [1]) with 1; lia).
  assert (L2 : len (wire_bytes sec) = 1 + len sec) by (apply len_wb; lia).
  pose proof (wb_le code ltac:(lia)) as L3.
  destruct (wit_push_holds _ [] (der ++ [1]) W0 D1B) as (w1 & -> & W1). { cbn [app flat_map]. rewrite app_nil_r. lia. }
  cbn [bind app] in *. unfold witness_push_pubkey.
  destruct (wit_push_holds _ _ sec W1 SB) as (w2 & -> & W2). { cbn [app flat_map]. rewrite app_nil_r, len_app. lia. }
  cbn [bind app] in *.
  assert (W3 : exists w3, (if wp then Ok w2 else witness_push_script w2 r) = Ok w3 /\ witness_holds w3 (segwit_wit wp der code)).
  { unfold segwit_wit. destruct wp; [eauto|]. destruct (wit_push_script_holds _ _ r code W2 R) as (w3 & -> & W3); eauto.
    cbn [app flat_map]. rewrite app_nil_r, !len_app. lia. }
  destruct W3 as (w3 & -> & W3). cbn [bind].
  unfold tx_set_in. rewrite u8_id, Nat2Z.id by lia. destruct H as (V & V1 & L & LL & FI & FO).
  destruct (set_in_holds _ _ _ i (signed_in i (segwit_sig wp ty code) (segwit_wit wp der code))
     (fun t0 => mkTxin (ti_hash t0) (ti_index t0) (script_assign (ti_script t0) ssig) (ti_seq t0) (witness_assign (ti_wit t0) w3) (ti_status t0) (ti_parsed t0)) FI E) as (l' & Q & FI').
  { intros x (P1 & P2 & P3 & P4 & P5 & P6 & P7 & P8 & P9). unfold txin_holds. cbn [ti_hash ti_index ti_script ti_seq ti_wit signed_in si_prev si_vout si_sig si_seq si_wit].
    pose proof (assign_holds' _ _ _ _ P6 SH). pose proof (wit_assign_holds _ _ _ _ P9 W3). tauto. }
  rewrite Q. cbn [bind]. eexists. exists der. split; [reflexivity|]. split; [reflexivity|].
  unfold tx_holds, with_in. cbn [t_version t_lock t_ins t_outs s_version s_ins s_outs s_lock]. tauto.
Qed.

(** The legacy variant; [pk] says that the script is a P2PKH one. *)
Definition legacy_sig (pk : bool) (der code : list Z) : list Z :=
  [len der + 1] ++ der ++ [1] ++ [len sec] ++ sec ++ (if pk then [] else wire_bytes code).
Lemma sign_legacy : forall t v idx i r code sh pk, tx_holds t v -> len (s_ins v) < 2^64 -> len (s_outs v) < 2^64 ->
  (idx < 256)%nat -> nth_error (s_ins v) idx = Some i ->
  script_holds r code -> len code <= 9000 -> pk = script_type_eqb (script_type_of r) P2PKH ->
  exists t' der,
    der = sign_der (dsha (all_preimage v idx code ++ le_bytes 4 sh)) /\
    tx_signInput dsha sec sign_der t (Z.of_nat idx) r sh = Ok (t', der) /\
    tx_holds t' (with_in v idx (signed_in i (legacy_sig pk der code) (si_wit i))).
Proof.
  intros t v idx i r code sh pk H NI NO II E R C WP. unfold tx_signInput.
  rewrite (sigHash_any dsha t v idx r code sh) by auto. cbn [bind].
  set (der := sign_der _). destruct (DER (all_preimage v idx code ++ le_bytes 4 sh)) as (DB & DL). fold der in DB, DL.
  destruct SEC as (SB & SL). pose proof (len_nonneg _ der). pose proof (len_nonneg _ sec). pose proof (len_nonneg _ code).
  pose proof (wb_le code ltac:(lia)) as L3.
  set (sc1 := script_push_pubkey (script_push_sig script_new der SIGHASH_ALL) sec).
  assert (S1 : script_holds sc1 ([len der + 1] ++ der ++ [1] ++ [len sec] ++ sec)).
  { unfold sc1, script_push_pubkey, script_push_sig.
    assert (X1 := push_byte_holds _ _ (len der + 1) new_holds ltac:(rewrite len_nil; lia)). cbn [app] in X1. rewrite u8_id in X1 by lia.
    assert (X2 := push_holds _ _ der X1 DB ltac:(change (len [len der + 1]) with 1; lia)).
    assert (X3 := push_byte_holds _ _ SIGHASH_ALL X2 ltac:(rewrite len_app; change (len [len der + 1]) with 1; lia)). change (u8 SIGHASH_ALL) with 1 in X3.
    assert (X4 := push_byte_holds _ _ (len sec) X3 ltac:(rewrite !len_app; change (len [len der + 1]) with 1; change (len [1]) with 1; lia)). rewrite u8_id in X4 by lia.
    assert (X5 := push_holds _ _ sec X4 SB ltac:(rewrite !len_app; change (len [len der + 1]) with 1; change (len [1]) with 1; change (len [len sec]) with 1; lia)).
    rewrite <- !app_assoc in X5. exact X5. }
  assert (S2 : exists sc2, (if script_type_eqb (script_type_of r) P2PKH then Ok sc1 else script_push_script sc1 r) = Ok sc2 /\ script_holds sc2 (legacy_sig pk der code)).
  { rewrite <- WP. unfold legacy_sig. destruct pk.
    - exists sc1. rewrite app_nil_r. auto.
    - destruct (push_script_holds _ _ r code S1 R) as (s2 & -> & X).
      + rewrite !len_app. change (len [len der + 1]) with 1; change (len [1]) with 1; change (len [len sec]) with 1. lia.
      + exists s2. split; auto. rewrite <- !app_assoc in X. exact X. }
  destruct S2 as (sc2 & -> & S2). cbn [bind].
  unfold tx_set_in. rewrite u8_id, Nat2Z.id by lia. destruct H as (V & V1 & L & LL & FI & FO).
  destruct (set_in_holds _ _ _ i (signed_in i (legacy_sig pk der code) (si_wit i))
     (fun t0 => mkTxin (ti_hash t0) (ti_index t0) (script_assign (ti_script t0) sc2) (ti_seq t0) (ti_wit t0) (ti_status t0) (ti_parsed t0)) FI E) as (l' & Q & FI').
  { intros x (P1 & P2 & P3 & P4 & P5 & P6 & P7 & P8 & P9). unfold txin_holds. cbn [ti_hash ti_index ti_script ti_seq ti_wit signed_in si_prev si_vout si_sig si_seq si_wit].
    pose proof (assign_holds' _ _ _ _ P6 S2). tauto. }
  rewrite Q. cbn [bind]. eexists. exists der. split; [reflexivity|]. split; [reflexivity|].
  unfold tx_holds, with_in. cbn [t_version t_lock t_ins t_outs s_version s_ins s_outs s_lock]. tauto.
Qed.
End Sign.

(** ** In terms of the specification *)
Lemma sign_segwit_at : forall dsha hash160 sha256 sec sign_der,
  (forall m, length (hash160 m) = 20%nat /\ bytes_ok (hash160 m)) -> (forall m, length (sha256 m) = 32%nat /\ bytes_ok (sha256 m)) ->
  bytes_ok sec /\ len sec <= 65 -> (forall m, bytes_ok (sign_der (dsha m)) /\ len (sign_der (dsha m)) <= 72) ->
  forall t v idx i r code amount ty sh wp, tx_holds t v -> (idx < 256)%nat -> nth_error (s_ins v) idx = Some i ->
  script_holds r code -> len code <= 9000 -> (wp = true <-> exists h, length h = 20%nat /\ code = 0 :: 20 :: h) ->
  exists t' der,
    der = sign_der (dsha (bip143_body dsha v idx i (if wp then key_code (hash160 sec) else code) amount 1 ++ le_bytes 4 sh)) /\
    tx_signSegwitInput dsha hash160 sha256 sec sign_der t (Z.of_nat idx) r amount ty sh = Ok (t', der) /\
    tx_holds t' (with_in v idx (signed_in i
      (expected_redeem (script_type_eqb ty P2SH_P2WPKH || script_type_eqb ty P2SH_P2WSH) wp sha256 code)
      (expected_wit wp sec der code))).
Proof.
  intros dsha hash160 sha256 sec sign_der H1 H2 H3 H4 t v idx i r code amount ty sh wp A B C D E F. rewrite all143_body.
  exact (sign_segwit dsha hash160 sha256 sec sign_der H1 H2 H3 H4 t v idx i r code amount ty sh wp A B C D E F).
Qed.
Lemma sign_segwit_any : forall dsha hash160 sha256 sec sign_der,
  (forall m, length (hash160 m) = 20%nat /\ bytes_ok (hash160 m)) -> (forall m, length (sha256 m) = 32%nat /\ bytes_ok (sha256 m)) ->
  bytes_ok sec /\ len sec <= 65 -> (forall h, bytes_ok (sign_der h) /\ len (sign_der h) <= 72) ->
  forall t v idx i r code amount ty sh wp, tx_holds t v -> (idx < 256)%nat -> nth_error (s_ins v) idx = Some i ->
  script_holds r code -> len code <= 9000 -> (wp = true <-> exists h, length h = 20%nat /\ code = 0 :: 20 :: h) ->
  exists t' der,
    der = sign_der (dsha (bip143_body dsha v idx i (if wp then key_code (hash160 sec) else code) amount 1 ++ le_bytes 4 sh)) /\
    tx_signSegwitInput dsha hash160 sha256 sec sign_der t (Z.of_nat idx) r amount ty sh = Ok (t', der) /\
    tx_holds t' (with_in v idx (signed_in i
      (expected_redeem (script_type_eqb ty P2SH_P2WPKH || script_type_eqb ty P2SH_P2WSH) wp sha256 code)
      (expected_wit wp sec der code))).
Proof. intros. apply sign_segwit_at; auto. Qed.
Lemma sign_segwit_ok : forall dsha hash160 sha256 sec sign_der,
  (forall m, length (hash160 m) = 20%nat /\ bytes_ok (hash160 m)) -> (forall m, length (sha256 m) = 32%nat /\ bytes_ok (sha256 m)) ->
  bytes_ok sec /\ len sec <= 65 -> (forall h, bytes_ok (sign_der h) /\ len (sign_der h) <= 72) ->
  forall t v idx i r code amount ty wp, tx_holds t v -> (idx < 256)%nat -> nth_error (s_ins v) idx = Some i ->
  script_holds r code -> len code <= 9000 -> (wp = true <-> exists h, length h = 20%nat /\ code = 0 :: 20 :: h) ->
  exists t' der,
    der = sign_der (dsha (bip143_preimage dsha v idx i (if wp then key_code (hash160 sec) else code) amount 1)) /\
    tx_signSegwitInput dsha hash160 sha256 sec sign_der t (Z.of_nat idx) r amount ty 1 = Ok (t', der) /\
    tx_holds t' (with_in v idx (signed_in i
      (expected_redeem (script_type_eqb ty P2SH_P2WPKH || script_type_eqb ty P2SH_P2WSH) wp sha256 code)
      (expected_wit wp sec der code))).
Proof. intros. apply sign_segwit_any; auto. Qed.
Lemma sign_legacy_at : forall dsha sec sign_der, bytes_ok sec /\ len sec <= 65 -> (forall m, bytes_ok (sign_der (dsha m)) /\ len (sign_der (dsha m)) <= 72) ->
  forall t v idx i r code sh pk, tx_holds t v -> len (s_ins v) < 2^64 -> len (s_outs v) < 2^64 ->
  (idx < 256)%nat -> nth_error (s_ins v) idx = Some i -> script_holds r code -> len code <= 9000 ->
  (pk = true <-> exists h, length h = 20%nat /\ code = key_code h) ->
  exists t' der,
    der = sign_der (dsha (legacy_body v idx code 1 ++ le_bytes 4 sh)) /\
    tx_signInput dsha sec sign_der t (Z.of_nat idx) r sh = Ok (t', der) /\
    tx_holds t' (with_in v idx (signed_in i (expected_sig pk sec der code) (si_wit i))).
Proof.
  intros dsha sec sign_der H3 H4 t v idx i r code sh pk A NI NO B C D E F. rewrite all_body.
  apply (sign_legacy dsha sec sign_der H3 H4 t v idx i r code sh pk); auto.
  rewrite <- (pkh_type _ _ D) in F. destruct pk; [destruct F as (-> & _); auto|]. destruct (script_type_of r); auto. destruct F as (_ & W). apply W; auto.
Qed.
Lemma sign_legacy_any : forall dsha sec sign_der, bytes_ok sec /\ len sec <= 65 -> (forall h, bytes_ok (sign_der h) /\ len (sign_der h) <= 72) ->
  forall t v idx i r code sh pk, tx_holds t v -> len (s_ins v) < 2^64 -> len (s_outs v) < 2^64 ->
  (idx < 256)%nat -> nth_error (s_ins v) idx = Some i -> script_holds r code -> len code <= 9000 ->
  (pk = true <-> exists h, length h = 20%nat /\ code = key_code h) ->
  exists t' der,
    der = sign_der (dsha (legacy_body v idx code 1 ++ le_bytes 4 sh)) /\
    tx_signInput dsha sec sign_der t (Z.of_nat idx) r sh = Ok (t', der) /\
    tx_holds t' (with_in v idx (signed_in i (expected_sig pk sec der code) (si_wit i))).
Proof. intros. apply sign_legacy_at; auto. Qed.
