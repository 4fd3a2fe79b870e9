(** Objects made from text (C89). *)
From Coq Require Import Lia.
From Verif Require Import Base.Bytes Base.BytesFacts Model.Conversion Model.Strings Model.Stream Model.Keys Model.Networks Model.Script Model.Tx
  Model.Address Model.Make Spec.Codecs Spec.Wire Spec.Objects Spec.Text Spec.Make Spec.Bech32 Spec.Address Proof.HexBin Proof.StreamTrace Proof.TextFacts
  Proof.StringFacts Proof.TxHash Proof.TxProps Proof.AddrProps.
Open Scope Z_scope.

(** * Hexadecimal text of either case *)
Lemma nibbles : forall a b, 0 <= a < 16 -> 0 <= b < 16 -> Z.lor (Z.shiftl a 4) b = 16 * a + b.
Proof.
  intros a b A B. rewrite Z.shiftl_mul_pow2 by lia. change (2^4) with 16. rewrite (Z.mul_comm 16).
  assert (F : forallb (fun a => forallb (fun b => Z.lor (a * 16) b =? a * 16 + b) (map Z.of_nat (seq 0 16))) (map Z.of_nat (seq 0 16)) = true)
    by (vm_compute; reflexivity).
  rewrite forallb_forall in F. specialize (F a). rewrite in_map_iff in F.
  assert (I : forall x, 0 <= x < 16 -> exists y, Z.of_nat y = x /\ In y (seq 0 16)) by (intros x X; exists (Z.to_nat x); rewrite in_seq; lia).
  specialize (F (I a A)). rewrite forallb_forall in F. specialize (F b). rewrite in_map_iff in F. specialize (F (I b B)). lia.
Qed.
Lemma loop_text : forall t bs, hex_text t bs -> forall done pad,
  fromHex_loop t (len done) (done ++ zeros (length bs + pad)) = Ok (len done + len bs, done ++ bs ++ zeros pad).
Proof.
  induction 1 as [|c|c1 c2 v1 v2 t bs D1 D2 H IH]; intros done pad.
  - cbn [fromHex_loop]. rewrite len_nil, Z.add_0_r. reflexivity.
  - cbn [fromHex_loop]. rewrite len_nil, Z.add_0_r. reflexivity.
  - cbn [fromHex_loop]. apply hexToVal_digit in D1 as [-> R1]. apply hexToVal_digit in D2 as [-> R2].
    destruct (Z.ltb_spec 15 v1); [lia|]. destruct (Z.ltb_spec 15 v2); [lia|]. cbn [orb]. rewrite nibbles by auto.
    set (b := 16 * v1 + v2).
    unfold aset. change (zeros (length (b :: bs) + pad)) with (0 :: zeros (length bs + pad)).
    pose proof (len_nonneg _ done) as LD. rewrite len_app, len_cons.
    pose proof (len_nonneg _ (zeros (length bs + pad))) as LZ.
    destruct (Z.leb_spec 0 (len done)); [|lia].
    destruct (Z.ltb_spec (len done) (len done + (1 + len (zeros (length bs + pad))))); [|lia].
    cbn [andb bind]. unfold len at 2. rewrite Nat2Z.id, set_nth_app_mid.
    replace (len done + 1) with (len (done ++ [b])) by (rewrite len_app; reflexivity).
    replace (done ++ b :: zeros (length bs + pad)) with ((done ++ [b]) ++ zeros (length bs + pad))
      by (rewrite <- app_assoc; reflexivity).
    rewrite IH. rewrite len_app, len_cons, len_nil, <- !app_assoc. cbn [app].
    rewrite len_cons. do 2 f_equal. lia.
Qed.
Lemma skip_app : forall ws t, no_digits ws -> skip_nonhex (ws ++ t) = skip_nonhex t.
Proof. induction ws as [|c ws IH]; intros t H; auto. inversion H; subst. cbn [app skip_nonhex]. rewrite hexToVal_none by auto. apply IH. auto. Qed.
Lemma skip_text : forall t bs, hex_text t bs -> (2 <= length t)%nat -> skip_nonhex t = t.
Proof.
  intros t bs H L. destruct H as [|c|c1 c2 v1 v2 t bs D1 D2 H]; cbn in L; try lia.
  cbn [skip_nonhex]. apply hexToVal_digit in D1 as [-> R]. destruct (Z.ltb_spec 15 v1); [lia|reflexivity].
Qed.
Lemma text_half : forall t bs, hex_text t bs -> len bs = len t / 2.
Proof.
  induction 1 as [|c|c1 c2 v1 v2 t bs D1 D2 H IH]; auto. rewrite !len_cons, IH. dlia.
Qed.
Lemma fromHex_text : forall ws t bs n, no_digits ws -> hex_text t bs -> (length bs <= n)%nat ->
  fromHex (ws ++ t) (zeros n) = Ok (len bs, bs ++ zeros (n - length bs)).
Proof.
  intros ws t bs n W H L. unfold fromHex. rewrite skip_app by auto.
  replace (length (zeros n)) with (length bs + (n - length bs))%nat by (unfold zeros; rewrite repeat_length; lia).
  destruct (Nat.le_gt_cases 2 (length t)) as [T|T].
  - rewrite (skip_text t bs) by auto. exact (loop_text t bs H [] (n - length bs)).
  - destruct H as [|c|]; [reflexivity| |cbn in T; lia]. cbn [skip_nonhex]. destruct (15 <? hexToVal c); reflexivity.
Qed.
Lemma text_firstn : forall t bs, hex_text t bs -> forall j, hex_text (firstn j t) (firstn (Nat.div2 j) bs).
Proof.
  induction 1 as [|c|c1 c2 v1 v2 t bs D1 D2 H IH]; intros j.
  - rewrite !firstn_nil. constructor.
  - rewrite firstn_nil. destruct j as [|j]; cbn [firstn]; [constructor|]. rewrite firstn_nil. constructor.
  - destruct j as [|[|j]]; cbn [firstn Nat.div2]; constructor; auto.
Qed.
Lemma hex_is_text : forall bs, bytes_ok bs -> hex_text (hex_string bs) bs.
Proof.
  induction bs as [|b bs IH]; intros H; [constructor|]. inversion H; subst. unfold byte_ok in H2.
  change (hex_string (b :: bs)) with (nth (Z.to_nat (b / 16)) hex_alphabet 0 :: nth (Z.to_nat (b mod 16)) hex_alphabet 0 :: hex_string bs).
  replace (b :: bs) with (16 * (b / 16) + b mod 16 :: bs) by (f_equal; dlia).
  assert (D : forall v, 0 <= v < 16 -> is_hex_digit (nth (Z.to_nat v) hex_alphabet 0) v).
  { intros v V. assert (F : forall k, (k < 16)%nat -> is_hex_digit (nth k hex_alphabet 0) (Z.of_nat k)).
    { intros k K. unfold is_hex_digit. do 16 (destruct k as [|k]; [cbn; lia|]). lia. }
    specialize (F (Z.to_nat v) ltac:(lia)). rewrite Z2Nat.id in F by lia. exact F. }
  constructor; auto; apply D; dlia.
Qed.

Lemma hex_string_len : forall bs, len (hex_string bs) = 2 * len bs.
Proof. induction bs as [|b bs IH]; auto. unfold hex_string in *. cbn [flat_map app]. rewrite !len_cons, IH. lia. Qed.

(** * Inputs *)
Lemma script_copy_same : forall s bs, script_holds s bs -> script_holds (script_copy s) bs.
Proof.
  intros s bs (A & L & B & R). unfold script_copy. destruct (Z.ltb_spec 0 (sc_len s)).
  - repeat split; auto.
  - assert (bs = []) as -> by (destruct bs; auto; rewrite len_cons in L; pose proof (len_nonneg _ bs); lia). apply new_holds.
Qed.
Lemma assign_new : forall s bs, script_holds s bs -> script_holds (script_assign script_new s) bs.
Proof.
  intros s bs (A & L & B & R). unfold script_assign. destruct (Z.ltb_spec 0 (sc_len s)).
  - repeat split; auto.
  - assert (bs = []) as -> by (destruct bs; auto; rewrite len_cons in L; pose proof (len_nonneg _ bs); lia). exact new_holds.
Qed.
Lemma no_witness : witness_holds witness_new [].
Proof. unfold witness_holds. cbn. repeat split; auto; lia. Qed.

(** [id] as it is shown, [rev id] as it is stored. *)
Lemma input_text : forall text id rest i q, hex_text text id -> len text = 64 -> 0 <= i < 2^32 -> 0 <= q < 2^32 ->
  exists x, txin_text (text ++ rest) i q = Ok x /\
    txin_holds x {| si_prev := rev id; si_vout := i; si_sig := []; si_seq := q; si_wit := [] |}.
Proof.
  intros text id rest i q H L I Q. pose proof (text_half _ _ H) as LB. rewrite L in LB. change (64 / 2) with 32 in LB.
  unfold txin_text. rewrite len_app. pose proof (len_nonneg _ rest). destruct (Z.ltb_spec (len text + len rest) 64); [lia|].
  assert (F : firstn 64 (text ++ rest) = [] ++ text).
  { rewrite firstn_app. replace (64 - length text)%nat with 0%nat by (unfold len in L; lia).
    rewrite firstn_all2 by (unfold len in L; lia). rewrite firstn_O, app_nil_r. reflexivity. }
  rewrite F, (fromHex_text [] text id 32); [|constructor|exact H|unfold len in LB; lia]. cbn [bind snd].
  replace (32 - length id)%nat with 0%nat by (unfold len in LB; lia). change (zeros 0) with (@nil Z). rewrite app_nil_r.
  eexists. split; [reflexivity|]. unfold txin_holds. cbn [ti_hash ti_index ti_script ti_seq ti_wit si_prev si_vout si_sig si_seq si_wit].
  split; [reflexivity|]. split; [rewrite rev_length; unfold len in LB; lia|]. split.
  { apply Forall_rev. eapply hex_text_bytes; eauto. }
  split; [reflexivity|]. split; [exact I|]. split; [apply new_holds|]. split; [reflexivity|]. split; [exact Q|apply no_witness].
Qed.
Lemma input_text_script : forall memory text id rest i s bs q, hex_text text id -> len text = 64 -> 0 <= i < 2^32 -> 0 <= q < 2^32 ->
  script_holds s bs ->
  exists x, txin_text_script memory (text ++ rest) i s q = Ok x /\
    txin_holds x {| si_prev := rev id; si_vout := i; si_sig := bs; si_seq := q; si_wit := [] |}.
Proof.
  intros memory text id rest i s bs q H L I Q S. destruct (input_text text id rest i q H L I Q) as (x & E & X).
  unfold txin_text, txin_text_script in *. destruct (Z.ltb_spec (len (text ++ rest)) 64) as [C|C].
  { rewrite len_app in C. pose proof (len_nonneg _ rest). lia. }
  destruct (fromHex (firstn 64 (text ++ rest)) (zeros 32)) as [r|]; [|discriminate]. cbn [bind] in *. injection E as <-.
  eexists. split; [reflexivity|]. destruct X as (X1 & X2 & X3 & X4 & X5 & X6 & X7 & X8 & X9).
  unfold txin_holds. cbn [ti_hash ti_index ti_script ti_seq ti_wit si_prev si_vout si_sig si_seq si_wit] in *.
  repeat (split; [first [assumption|apply assign_new, script_copy_same; assumption]|]). assumption.
Qed.
Lemma input_txid : forall heap dsha, (forall n, length (heap n) = n) -> (forall m, length (dsha m) = 32%nat) -> (forall m, bytes_ok (dsha m)) ->
  forall t v i q, tx_holds t v -> countable v -> 0 <= i < 2^32 -> 0 <= q < 2^32 ->
  exists text x, tx_txid_string heap dsha t = Ok text /\ text = hex_string (rev (dsha (wire_legacy v))) /\
    txin_text text i q = Ok x /\
    txin_holds x {| si_prev := dsha (wire_legacy v); si_vout := i; si_sig := []; si_seq := q; si_wit := [] |}.
Proof.
  intros heap dsha HH DL DB t v i q H C I Q. set (h := dsha (wire_legacy v)).
  assert (B : bytes_ok (rev h)) by (apply Forall_rev, DB).
  assert (L : len (rev h) = 32) by (unfold len; rewrite rev_length; unfold h; rewrite DL; reflexivity).
  pose proof (hex_is_text _ B) as T. pose proof (hex_string_len (rev h)) as TL. rewrite L in TL.
  destruct (input_text (hex_string (rev h)) (rev h) [] i q T TL I Q) as (x & E & X). rewrite app_nil_r in E. rewrite rev_involutive in X.
  exists (hex_string (rev h)), x. split; [|auto]. unfold tx_txid_string. rewrite (txid_ok dsha t v H C). cbn [bind].
  apply toHex_string_ok; auto. fold h. rewrite L. lia.
Qed.

(** Leading characters that are no digits take the place of the last ones. *)
Lemma input_spaces : forall ws id rest i q, no_digits ws -> 0 < len ws <= 64 -> bytes_ok id -> len id = 32 ->
  exists x, txin_text (ws ++ hex_string id ++ rest) i q = Ok x /\ ti_index x = i /\ ti_seq x = q /\
    let kept := firstn (Z.to_nat ((64 - len ws) / 2)) id in ti_hash x = rev (kept ++ zeros (32 - length kept)).
Proof.
  intros ws id rest i q W L B LI. unfold txin_text. rewrite !len_app. pose proof (len_nonneg _ rest).
  pose proof (hex_string_len id) as HL. rewrite LI in HL.
  destruct (Z.ltb_spec (len ws + (len (hex_string id) + len rest)) 64); [lia|].
  assert (F : firstn 64 (ws ++ hex_string id ++ rest) = ws ++ firstn (64 - length ws) (hex_string id)).
  { rewrite firstn_app, firstn_all2 by (unfold len in L; lia). f_equal. rewrite firstn_app.
    replace (64 - length ws - length (hex_string id))%nat with 0%nat by (unfold len in *; lia). rewrite firstn_O, app_nil_r. reflexivity. }
  rewrite F. pose proof (text_firstn _ _ (hex_is_text _ B) (64 - length ws)) as T.
  assert (K : Nat.div2 (64 - length ws) = Z.to_nat ((64 - len ws) / 2)).
  { rewrite Nat.div2_div. rewrite <- (Nat2Z.id ((64 - length ws) / 2)). f_equal. rewrite Nat2Z.inj_div. f_equal. unfold len in *. lia. }
  rewrite K in T. set (kept := firstn (Z.to_nat ((64 - len ws) / 2)) id) in *.
  rewrite (fromHex_text ws _ kept 32); auto; [|unfold kept; rewrite firstn_length; unfold len in LI; lia].
  cbn [bind snd]. eexists. split; [reflexivity|]. auto.
Qed.
Lemma input_prefix : forall d x rest i q, (exists v, is_hex_digit d v) -> (~ exists v, is_hex_digit x v) -> 62 <= len rest ->
  txin_text (d :: x :: rest) i q = Ok (mkTxin (zeros 32) i script_new q witness_new DONE 0).
Proof.
  intros d x rest i q (v & D) X L. unfold txin_text. rewrite !len_cons. destruct (Z.ltb_spec (1 + (1 + len rest)) 64); [lia|].
  change (firstn 64 (d :: x :: rest)) with (d :: x :: firstn 62 rest). unfold fromHex. cbn [skip_nonhex].
  pose proof (hexToVal_digit _ _ D) as [-> R]. destruct (Z.ltb_spec 15 v); [lia|]. cbn [fromHex_loop].
  rewrite (hexToVal_none x) by auto. change (15 <? 255) with true. rewrite orb_true_r. reflexivity.
Qed.
Lemma input_short : forall text i q, len text < 64 -> txin_text text i q = Ok txin_new.
Proof. intros text i q L. unfold txin_text. destruct (Z.ltb_spec (len text) 64); [reflexivity|lia]. Qed.
Lemma input_junk : forall memory text i s q, len text < 64 ->
  txin_text_script memory text i s q = Ok (mkTxin memory i script_new q witness_new DONE 0).
Proof. intros memory text i s q L. unfold txin_text_script. destruct (Z.ltb_spec (len text) 64); [reflexivity|lia]. Qed.

(** * Outputs *)
Section Out.
Variable dsha : list Z -> list Z.
Hypothesis dsha_len : forall m, length (dsha m) = 32%nat.
Hypothesis dsha_ok : forall m, bytes_ok (dsha m).
Lemma output_text : forall n c bs text a, chain_of n c -> address_of dsha c bs text ->
  (c = main_chain -> forall h, bs = p2pkh_script h -> firstn 2 h <> [0; 0]) ->
  (c = reg_chain -> forall h, bs <> witness_script 0 h) -> 0 <= a < 2^64 ->
  exists o, txout_text dsha a text = Ok o /\ txout_holds o {| so_value := a; so_script := bs |}.
Proof.
  intros n c bs text a N A M R V. destruct (address_round_trip dsha dsha_len dsha_ok n c script_new bs text N A M R) as (s & E & H).
  unfold txout_text. rewrite E. cbn [bind]. eexists. split; [reflexivity|]. split; [reflexivity|]. split; [exact V|].
  apply assign_new. exact H.
Qed.
Lemma output_unknown : forall text a, 0 <= a < 2^64 -> script_fromAddress dsha script_new text = Ok (script_clear script_new) ->
  exists o, txout_text dsha a text = Ok o /\ to_status o = DONE /\ txout_holds o {| so_value := a; so_script := [] |}.
Proof.
  intros text a V E. unfold txout_text. rewrite E. cbn [bind]. eexists. split; [reflexivity|]. split; [reflexivity|]. split; [reflexivity|].
  split; [exact V|]. exact new_holds.
Qed.
Lemma output_empty : forall text a, 0 <= a < 2^64 ->
  (exists h, address_of dsha main_chain (p2pkh_script h) text /\ len text < 33) \/
  (exists h, bytes_ok h /\ (len h = 20 \/ len h = 32) /\ segwit_text (ch_hrp reg_chain) 0 h text) \/
  (exists c ver prog, (c = main_chain \/ c = test_chain) /\ program_ok ver prog /\ bech32m_text (ch_hrp c) ver prog text) ->
  exists o, txout_text dsha a text = Ok o /\ to_status o = DONE /\ txout_holds o {| so_value := a; so_script := [] |}.
Proof.
  intros text a V [(h & A & L)|[(h & B & L & T)|(c & ver & prog & C & P & T)]]; apply output_unknown; auto.
  - apply (short_address dsha dsha_len dsha_ok script_new h text A). exact L.
  - exact (regtest_refused dsha script_new h text B L T).
  - destruct C as [-> | ->]; [exact (bech32m_refused dsha script_new Mainnet main_chain ver prog text (or_introl (conj eq_refl eq_refl)) P T)|].
    exact (bech32m_refused dsha script_new Testnet test_chain ver prog text (or_intror (conj eq_refl eq_refl)) P T).
Qed.

(** * All together *)
Lemma build : forall heap, (forall n, length (heap n) = n) ->
  forall t v i q n c bs address a, tx_holds t v -> countable v -> 0 <= i < 2^32 -> 0 <= q < 2^32 ->
  chain_of n c -> address_of dsha c bs address ->
  (c = main_chain -> forall h, bs = p2pkh_script h -> firstn 2 h <> [0; 0]) ->
  (c = reg_chain -> forall h, bs <> witness_script 0 h) -> 0 <= a < 2^64 ->
  exists text x o, tx_txid_string heap dsha t = Ok text /\ txin_text text i q = Ok x /\ txout_text dsha a address = Ok o /\
    let new := tx_addOutput (tx_addInput tx_new x) o in
    tx_holds new (pay (dsha (wire_legacy v)) i q a bs) /\
    serialize (tx_to_stream new) (Z.to_nat (tx_length new)) 0 = Ok (tx_length new, wire_tx (pay (dsha (wire_legacy v)) i q a bs)).
Proof.
  intros heap HH t v i q n c bs address a H C I Q N A M R V.
  destruct (input_txid heap dsha HH dsha_len dsha_ok t v i q H C I Q) as (text & x & E1 & _ & E2 & X).
  destruct (output_text n c bs address a N A M R V) as (o & E3 & O).
  exists text, x, o. split; [exact E1|]. split; [exact E2|]. split; [exact E3|]. intros new.
  assert (T : tx_holds new (pay (dsha (wire_legacy v)) i q a bs)).
  { unfold tx_holds, new, pay. cbn [tx_addOutput tx_addInput tx_new t_version t_lock t_ins t_outs s_version s_lock s_ins s_outs app].
    split; [reflexivity|]. split; [lia|]. split; [reflexivity|]. split; [lia|]. split; constructor; auto. }
  split; [exact T|]. refine (proj1 (tx_round_trip new _ tx_new [] T _ eq_refl)).
  unfold small_tx, pay. cbn [s_ins s_outs]. rewrite !len_cons, !len_nil. split; [lia|]. split; [lia|]. repeat constructor.
Qed.
End Out.

(** * Private keys *)
Lemma key_unknown : forall dsha memory text, fst (fromBase58Check dsha text (zeros 40)) = 0 ->
  privkey_text dsha memory text = mkPk (zeros 32) (pk_net memory) (pk_compressed memory).
Proof.
  intros dsha memory text E. unfold privkey_text, fromWIF. destruct (fromBase58Check dsha text (zeros 40)) as [l arr]. cbn [fst] in E. subst l.
  reflexivity.
Qed.
