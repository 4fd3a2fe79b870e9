(** Electrum transactions whose keys are in the scripts, read in any pieces. *)
From Coq Require Import Lia.
From Verif Require Import Base.Bytes Base.BytesFacts Spec.Codecs Spec.Wire Spec.Objects Spec.Keys Spec.HD Spec.Sighash Spec.Electrum
  Model.Conversion Model.Stream Model.Script Model.Tx Model.Sign Model.Point Model.HD Model.Electrum
  Proof.IntVarint Proof.StreamFacts Proof.ScriptFacts Proof.TxIo Proof.IoProps Proof.TxSer Proof.TxParse Proof.Chunks Proof.TxPhases Proof.TxSegwit Proof.TxLegacy Proof.ElectrumParse Proof.ElectrumProps Proof.ElectrumChunks Proof.ElectrumCuts.
Open Scope Z_scope.

(** ** Transactions with their keys in the scripts *)
Section Legacy.
Variable uncompress : list Z -> list Z -> outcome (list Z).
Variable valid : list Z -> bool.
Variable garbage : list Z.
Variable junk : nat -> Z * Z * Z.
Notation parse := (el_parse uncompress valid garbage junk).
Definition legacy_end (t : tx) (pos : Z) : outcome electrum :=
  let! r2 := legacy_metas uncompress valid garbage (t_ins t) (new_metas junk (length (t_ins t))) in
  let '(ins, ms, bad2) := r2 in
  Ok (mkEl (mkTx (t_version t) ins (t_outs t) (t_lock t) (t_segflag t) (t_status t) (t_parsed t)) false (Some ms) (if bad2 : bool then FAILED else DONE) pos).
Lemma legacy_end_status : forall t pos e, legacy_end t pos = Ok e -> el_status e <> INCOMPLETE.
Proof.
  intros t pos e E. unfold legacy_end in E. destruct (legacy_metas _ _ _ _ _) as [[[ins ms] b]|]; cbn [bind] in E; [|discriminate].
  apply (f_equal (fun o => match o with Ok e => el_status e | UB => DONE end)) in E. cbn [el_status] in E. rewrite <- E. destruct b; discriminate.
Qed.
Lemma not_failed : forall t, t_status t <> FAILED -> pstatus_eqb (t_status t) FAILED = false.
Proof. intros t N. destruct (t_status t); [reflexivity|reflexivity|contradiction]. Qed.
Lemma step_end : forall t pos c t1 n r, 6 <= pos -> c <> [] -> t_status t <> FAILED -> tx_parse t c = Ok (t1, n, r) -> t_status t1 = DONE ->
  parse (e_in t pos) c = let! e := legacy_end t1 (pos + n) in Ok (e, n, r).
Proof.
  intros t pos c t1 n r L NC NF E D. rewrite parse_in. unfold el_body, e_in. cbn [el_parsed el_segwit el_tx el_metas]. rewrite prefix_past by auto. cbn [negb].
  destruct c as [|b c]; [contradiction|]. rewrite not_failed by auto. cbn [andb negb]. rewrite E. cbn [bind]. rewrite D. unfold legacy_end.
  destruct (legacy_metas _ _ _ _ _) as [[[ins ms] bad]|]; cbn [bind]; [|reflexivity]. rewrite D. destruct bad; [do 3 f_equal; lia|].
  unfold el_after. cbn [t_status pstatus_eqb andb]. do 3 f_equal. lia.
Qed.
Lemma step_more : forall t pos c t1 n r, 6 <= pos -> c <> [] -> t_status t <> FAILED -> tx_parse t c = Ok (t1, n, r) -> t_status t1 = INCOMPLETE -> parse (e_in t pos) c = Ok (e_in t1 (pos + n), n, r).
Proof.
  intros t pos c t1 n r L NC NF E S. rewrite parse_in. unfold el_body, e_in. cbn [el_parsed el_segwit el_tx el_metas]. rewrite prefix_past by auto. cbn [negb].
  destruct c as [|b c]; [contradiction|]. rewrite not_failed by auto. cbn [andb negb]. rewrite E. cbn [bind]. rewrite S. unfold el_after. rewrite S. cbn [pstatus_eqb andb]. do 3 f_equal. lia.
Qed.
Lemma fin_parsed : forall s, t_parsed (fin s) = t_parsed s.
Proof. intros s. unfold fin. destruct (t_status s); reflexivity. Qed.
Lemma ptx_count : forall s c s1 n r, t_status s <> FAILED -> ptx s c = Ok (s1, n, r) -> n = t_parsed s1 - t_parsed (start s).
Proof.
  intros s c s1 n r NF E. assert (E' : (let! x := F8 (start s) c in Ok (fin (fst x), t_parsed (fst x) - t_parsed (start s), snd x)) = Ok (s1, n, r)).
  { unfold ptx in E. destruct (t_status s); auto. congruence. }
  destruct (F8 (start s) c) as [x|]; cbn [bind] in E'; [|discriminate]. assert (s1 = fin (fst x)) by congruence. assert (n = t_parsed (fst x) - t_parsed (start s)) by congruence. subst s1. rewrite fin_parsed. auto.
Qed.
Lemma feed_legacy : forall chunks s t1 n r, tok s -> chunks <> [] -> Forall (fun c => c <> [] /\ bytes_ok c) chunks ->
  feed ptx t_status s chunks = Ok (t1, n, r) -> t_status t1 = DONE ->
  feed parse el_status (e_in s (6 + t_parsed (start s))) chunks = let! e := legacy_end t1 (6 + t_parsed (start s) + n) in Ok (e, n, r).
Proof.
  induction chunks as [|c cs IH]; intros s t1 n r OK NE F E D; [contradiction|]. apply Forall_cons_iff in F as ((C1 & C2) & F).
  cbn [feed] in E. destruct (ptx s c) as [[[s1 n1] r1]|] eqn:P; cbn [bind] in E; [|discriminate].
  assert (NF1 : t_status s1 <> FAILED) by (intros X; rewrite X in E; assert (s1 = t1) by congruence; congruence).
  assert (NS : t_status s <> FAILED) by (intros X; unfold ptx in P; rewrite X in P; assert (s = s1) by congruence; congruence).
  destruct (start_tok s OK NS) as [IS _]. destruct IS as (P0 & _).
  pose proof (ptx_fwd s c s1 n1 r1 OK C2 P NF1) as TP. pose proof (ptx_count s c s1 n1 r1 NS P) as N1.
  cbn [feed]. destruct (t_status s1) eqn:S1; [| |contradiction].
  - rewrite (step_end s _ c s1 n1 r1) by (auto; lia). assert (s1 = t1) by congruence. assert (n1 = n) by congruence. assert (R : r1 ++ concat cs = r) by congruence. subst t1 n.
    destruct (legacy_end s1 _) as [e|] eqn:L; cbn [bind]; [|reflexivity]. apply legacy_end_status in L. rewrite R. destruct (el_status e); [reflexivity|contradiction|reflexivity].
  - destruct (proj2 ptx_both s c s1 n1 r1 OK C1 C2 P S1) as [-> OK1]. pose proof (OK1 S1) as (P1 & _).
    rewrite (step_more s _ c s1 n1 []) by (auto; lia). cbn [bind]. change (el_status (e_in s1 _)) with INCOMPLETE. cbv iota.
    destruct (feed ptx t_status s1 cs) as [[[s2 n2] r2]|] eqn:FE; cbn [bind] in E; [|discriminate].
    assert (s2 = t1) by congruence. assert (n = n1 + n2) by congruence. assert (R : r2 = r) by (cbn [app] in E; congruence). subst s2 n r2.
    assert (NC : cs <> []) by (intros ->; cbn [feed] in FE; assert (s1 = t1) by congruence; congruence).
    assert (SS : start s1 = s1) by (unfold start; rewrite S1; reflexivity).
    specialize (IH s1 t1 n2 r OK1 NC F FE D). rewrite SS in IH. replace (6 + t_parsed (start s) + n1) with (6 + t_parsed s1) by lia. rewrite IH.
    replace (6 + t_parsed (start s) + (n1 + n2)) with (6 + t_parsed s1 + n2) by lia. destruct (legacy_end t1 _); reflexivity.
Qed.
Lemma legacy_ptx : forall t chunks t' n r, t_status t = DONE -> chunks <> [] -> Forall (fun c => c <> [] /\ bytes_ok c) chunks ->
  nth 4 (concat chunks) 1 <> 0 -> tx_parse t (concat chunks) = Ok (t', n, r) -> t_status t' <> FAILED -> feed ptx t_status t chunks = Ok (t', n, r).
Proof.
  intros t chunks t' n r S NE F N E NF. pose proof (concat_bytes _ F) as B.
  assert (OK : tok t) by (intros X; congruence).
  assert (P : ptx t (concat chunks) = Ok (t', n, r)).
  { apply ptx_bwd; auto. unfold start. rewrite S. cbn [t_parsed]. intros _ L. apply (fifth _ _ _ _ _ S E NF); [lia|].
    rewrite (nth_indep _ 0 1) by (unfold len in L; lia). exact N. }
  assert (D : ptx t (concat chunks) <> UB) by congruence. destruct ptx_both as [T1 T2].
  pose proof (feed_same ptx t_status tok T1 T2 chunks t OK NE F D) as X. rewrite P in X.
  destruct X as [X|[_ (? & ? & ? & X & Y)]]; [exact X|]. exfalso. apply NF. congruence.
Qed.
Lemma legacy_any : forall e v rest, el_status e = DONE -> tx_ok v -> has_witness v = false -> 1 <= len (s_ins v) < 253 -> len (s_outs v) < 253 ->
  exists t, forall chunks, Forall (fun c => c <> [] /\ bytes_ok c) chunks -> concat chunks = electrum_magic ++ wire_legacy v ++ rest -> feed parse el_status e chunks = let! e := legacy_end t (6 + len (wire_legacy v)) in Ok (e, 6 + len (wire_legacy v), rest).
Proof.
  intros e v rest D K W NI NO. assert (WL : wire_tx v = wire_legacy v) by (unfold wire_tx; rewrite W; reflexivity).
  destruct (tx_round tx_new v rest eq_refl K (no_witness_ok v W) NI NO) as (t & E & TD & _). exists t. rewrite WL in E. intros chunks F CE.
  assert (NW : wire_legacy v ++ rest <> []) by (unfold wire_legacy, le_bytes; discriminate).
  destruct (feed_magic uncompress valid garbage junk chunks 0 (wire_legacy v ++ rest) ltac:(lia) F CE NW) as (more & M1 & M2 & M3 & _ & M4).
  assert (FS : feed parse el_status e chunks = feed parse el_status (e_in tx_new 0) chunks).
  { destruct chunks as [|c cs]; [cbn [concat] in CE; discriminate CE|]. cbn [feed]. rewrite (parse_start uncompress valid garbage junk e c D). reflexivity. }
  assert (N4 : nth 4 (wire_legacy v ++ rest) 1 = len (s_ins v)).
  { unfold wire_legacy, wire_list at 1.
    assert (X : compact_size (len (s_ins v)) = [len (s_ins v)]) by (unfold compact_size; destruct (Z.ltb_spec (len (s_ins v)) 253); [reflexivity|lia]). rewrite X. reflexivity. }
  rewrite FS. change 0 with (Z.of_nat 0) at 1. rewrite M4.
  pose proof (feed_legacy more tx_new t (len (wire_legacy v)) rest ltac:(intros X; discriminate X) M1 M2) as FL. change (6 + t_parsed (start tx_new)) with 6 in FL.
  rewrite FL; auto.
  - destruct (legacy_end t _); cbn [bind shift]; [do 3 f_equal; lia|reflexivity].
  - apply legacy_ptx; auto; [rewrite M3, N4; lia|rewrite M3; exact E|congruence].
Qed.
End Legacy.

Theorem legacy_pieces : forall garbage junk e v xs rest chunks, el_status e = DONE -> tx_ok v -> no_witnesses v -> no_scripts v -> 1 <= len (s_ins v) < 253 -> len (s_outs v) < 253 ->
  length xs = length (s_ins v) -> Forall einput_ok xs -> Forall key_on_curve xs ->
  Forall (fun c => c <> [] /\ bytes_ok c) chunks -> concat chunks = electrum_legacy v xs ++ rest ->
  exists e', feed (el_parse uncompress_pubkey pt_valid_bytes garbage junk) el_status e chunks = Ok (e', len (electrum_legacy v xs), rest) /\
    el_parse uncompress_pubkey pt_valid_bytes garbage junk e (electrum_legacy v xs ++ rest) = Ok (e', len (electrum_legacy v xs), rest) /\
    el_status e' = DONE /\ electrum_holds e' v xs.
Proof.
  intros garbage junk e v xs rest chunks D TX NW NS NI NO LX OK OC F CE.
  destruct (legacy_ok garbage junk e v xs rest D TX NW NS NI NO LX OK OC) as (e' & ms & P & D' & H & _).
  exists e'. split; [|auto]. destruct TX as (V & LK & FI & FO).
  assert (LC : length (s_ins (with_scripts v xs)) = length (s_ins v)) by (unfold with_scripts; cbn [s_ins]; rewrite map_length, combine_length; lia).
  assert (LL : len (s_ins (with_scripts v xs)) = len (s_ins v)) by (unfold len; rewrite LC; reflexivity).
  assert (TX' : tx_ok (with_scripts v xs)).
  { unfold tx_ok, with_scripts. cbn [s_version s_lock s_ins s_outs]. split; [exact V|]. split; [exact LK|]. split; [|exact FO].
    apply Forall_map, Forall_forall. intros (i & x) I. cbn [fst snd]. pose proof (in_combine_l _ _ _ _ I) as I1. pose proof (in_combine_r _ _ _ _ I) as I2.
    rewrite Forall_forall in FI, OK. destruct (FI i I1) as (P1 & P2 & P3 & P4 & P5 & P6 & P7). destruct (script_87 x (OK x I2)) as (Q1 & Q2).
    unfold in_ok, with_sig. cbn [si_prev si_vout si_sig si_seq si_wit]. rewrite Q2. split; [exact P1|]. split; [exact P2|]. split; [exact P3|]. split; [exact P4|]. split; [exact Q1|]. split; [lia|constructor]. }
  pose proof (concat_bytes _ F) as BW. rewrite CE in BW.
  assert (WE : electrum_legacy v xs ++ rest = electrum_magic ++ wire_legacy (with_scripts v xs) ++ rest) by (unfold electrum_legacy; rewrite <- app_assoc; reflexivity).
  assert (NE : electrum_legacy v xs ++ rest <> []) by (unfold electrum_legacy; discriminate).
  assert (FW : feed (el_parse uncompress_pubkey pt_valid_bytes garbage junk) el_status e [electrum_legacy v xs ++ rest] = Ok (e', len (electrum_legacy v xs), rest)).
  { cbn [feed]. rewrite P. cbn [bind]. rewrite D'. cbn [concat]. rewrite app_nil_r. reflexivity. }
  destruct (legacy_any uncompress_pubkey pt_valid_bytes garbage junk e (with_scripts v xs) rest D TX' (legacy_wire v xs) ltac:(lia) NO) as (t1 & E1).
  rewrite (E1 [electrum_legacy v xs ++ rest] (Forall_cons _ (conj NE BW) (Forall_nil _))) in FW by (cbn [concat]; rewrite app_nil_r; exact WE).
  rewrite (E1 chunks F (eq_trans CE WE)). exact FW.
Qed.
