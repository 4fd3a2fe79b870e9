(** Bytes that are not Electrum's: what is refused and what is not. *)
From Coq Require Import Lia.
From Verif Require Import Base.Bytes Base.BytesFacts Spec.Codecs Spec.Wire Spec.Objects Spec.Keys Spec.HD Spec.Sighash Spec.Electrum
  Model.Conversion Model.Stream Model.Script Model.Tx Model.Sign Model.Point Model.HD Model.Electrum
  Proof.IntVarint Proof.StreamFacts Proof.ScriptFacts Proof.TxIo Proof.IoProps Proof.TxSer Proof.TxParse Proof.TxLegacy Proof.ElectrumParse Proof.ElectrumProps.
Open Scope Z_scope.

Section Other.
Variable garbage : list Z.
Variable junk : nat -> Z * Z * Z.
Notation parse := (el_parse uncompress_pubkey pt_valid_bytes garbage junk).
Lemma prefix_bad : forall p k b b' q r, skipn k el_prefix = p ++ b' :: r -> b <> b' -> (k <= 6)%nat ->
  prefix_loop (Z.of_nat k) (p ++ b :: q) = (Z.of_nat k + len p + 1, q, true).
Proof.
  induction p as [|c p IH]; intros k b b' q r E N K.
  - cbn [app prefix_loop]. assert (L : (k < 6)%nat). { destruct (Nat.eq_dec k 6) as [->|]; [cbn in E; discriminate E|lia]. }
    rewrite (proj2 (Z.ltb_lt _ _)) by lia. rewrite Nat2Z.id.
    assert (X : nth k el_prefix 0 = b') by (do 6 (destruct k as [|k]; [unfold el_prefix in *; cbn in E |- *; congruence|]); lia).
    rewrite X. apply Z.eqb_neq in N. rewrite N, len_nil. f_equal; f_equal; lia.
  - assert (L : (k < 6)%nat). { destruct (Nat.eq_dec k 6) as [->|]; [cbn in E; discriminate E|lia]. }
    cbn [app prefix_loop]. rewrite (proj2 (Z.ltb_lt _ _)) by lia. rewrite Nat2Z.id.
    assert (X : nth k el_prefix 0 = c /\ skipn (S k) el_prefix = p ++ b' :: r) by (do 6 (destruct k as [|k]; [unfold el_prefix in *; cbn in E |- *; split; congruence|]); lia).
    destruct X as (X1 & X2). rewrite X1, Z.eqb_refl. replace (Z.of_nat k + 1) with (Z.of_nat (S k)) by lia. rewrite (IH (S k) b b' q r X2 N L). rewrite len_cons. f_equal; f_equal; lia.
Qed.
Theorem magic_refused : forall e p b b' q r, el_status e = DONE -> electrum_magic = p ++ b' :: r -> b <> b' ->
  exists e', parse e (p ++ b :: q) = Ok (e', len p + 1, q) /\ el_status e' = FAILED /\ forall st, parse e' st = Ok (e', 0, st).
Proof.
  intros e p b b' q r D E N. exists (mkEl tx_new false None FAILED (Z.of_nat 0 + len p + 1)). split; [|split; [|intros st; unfold el_parse; reflexivity]].
  - unfold el_parse. rewrite D. unfold el_body. cbn [el_parsed el_tx el_segwit el_metas]. change 0 with (Z.of_nat 0) at 1. rewrite (prefix_bad p 0 b b' q r E N) by lia.
    cbv iota. do 2 f_equal. f_equal. lia.
  - reflexivity.
Qed.

(** *** Transactions behind the magic *)
Lemma no_key : forall i m, in_ok i -> len (si_sig i) <> 87 -> legacy_meta uncompress_pubkey pt_valid_bytes garbage (pin0 i) m = Ok (pin0 i, m, true).
Proof.
  intros i m (_ & _ & _ & _ & B & L & _) N. unfold legacy_meta. change (ti_script (pin0 i)) with (parsed_script (si_sig i)). rewrite parsed_script_length by auto.
  destruct (Z.eqb_spec (len (wire_bytes (si_sig i))) 88) as [X|X]; [|reflexivity]. exfalso. unfold wire_bytes in X. rewrite len_app in X.
  unfold compact_size in X. pose proof (len_nonneg _ (si_sig i)). destruct (Z.ltb_spec (len (si_sig i)) 253) as [Y|Y].
  - unfold len in X at 1. cbn [length] in X. lia.
  - repeat match type of X with context [if ?c then _ else _] => destruct c end; match type of X with len ?a + _ = _ => pose proof (len_nonneg _ a) end; lia.
Qed.
Lemma metas_refused : forall is xs i ins2 ms, length xs = length is -> (length is < length ms)%nat -> Forall (fun m => em_hd m = hp_new) ms ->
  Forall einput_ok xs -> Forall key_on_curve xs -> in_ok i -> len (si_sig i) <> 87 ->
  exists ins ms', legacy_metas uncompress_pubkey pt_valid_bytes garbage (map pin0 (map (fun p => legacy_in (fst p) (snd p)) (combine is xs) ++ i :: ins2)) ms = Ok (ins, ms', true).
Proof.
  induction is as [|j is IH]; intros [|x xs] i ins2 [|m ms] L1 L2 F OK OC I N; try discriminate L1; cbn [length] in L2; try lia.
  - cbn [combine map app legacy_metas]. rewrite no_key by auto. cbn [bind]. eexists. eexists. reflexivity.
  - apply Forall_cons_iff in F as (M1 & M2). apply Forall_cons_iff in OK as (O1 & O2). apply Forall_cons_iff in OC as (C1 & C2).
    cbn [combine map fst snd app legacy_metas]. rewrite legacy_meta_ok by auto. cbn [bind].
    destruct (IH xs i ins2 ms ltac:(cbn in L1; lia) ltac:(lia) M2 O2 C2 I N) as (a & b & E). rewrite E. cbn [bind]. eexists. eexists. reflexivity.
Qed.
Lemma fresh_new : forall n, Forall (fun m => em_hd m = hp_new) (new_metas junk n).
Proof. intros n. unfold new_metas. apply Forall_map, Forall_forall. intros j _. unfold new_meta. destruct (junk j) as [[a b] c]. reflexivity. Qed.
(** The parse up to the loop over the inputs. *)
Lemma legacy_front : forall e v rest, el_status e = DONE -> tx_ok v -> has_witness v = false -> 1 <= len (s_ins v) < 253 -> len (s_outs v) < 253 ->
  parse e (electrum_magic ++ wire_tx v ++ rest) =
  (let! r2 := legacy_metas uncompress_pubkey pt_valid_bytes garbage (map pin0 (s_ins v)) (new_metas junk (length (s_ins v))) in
   let '(ins, ms, bad) := r2 in
   Ok (mkEl (mkTx (s_version v) ins (map parsed_out (s_outs v)) (s_lock v) 0 DONE (len (wire_tx v))) false (Some ms) (if bad : bool then FAILED else DONE) (6 + len (wire_tx v)), 6 + len (wire_tx v), rest)).
Proof.
  intros e v rest D K W NI NO. pose proof (tx_parse_wire tx_new v rest eq_refl K (no_witness_ok v W) NI NO) as P. unfold parsed_tx in P. rewrite W in P. cbn [b2z] in P.
  unfold el_parse. rewrite D. unfold el_body. cbn [el_parsed el_segwit el_tx el_metas]. rewrite prefix_ok. cbn [negb andb].
  assert (NE : (match wire_tx v ++ rest with [] => false | _ :: _ => true end) = true) by (unfold wire_tx; rewrite W; reflexivity).
  rewrite NE. change (negb (pstatus_eqb (t_status tx_new) FAILED)) with true. cbn [andb]. cbv iota. rewrite P. cbn [bind t_status t_ins]. rewrite map_length.
  destruct (legacy_metas _ _ _ _ _) as [[[ins ms] bad]|]; cbn [bind]; [|reflexivity]. cbn [t_version t_outs t_lock t_segflag t_parsed].
  destruct bad; [do 2 f_equal; f_equal; lia|]. unfold el_after. cbn [t_status pstatus_eqb andb]. do 2 f_equal. f_equal. lia.
Qed.
Theorem plain_refused : forall e v ins1 xs i ins2 rest, el_status e = DONE -> tx_ok v -> has_witness v = false -> 1 <= len (s_ins v) < 253 -> len (s_outs v) < 253 ->
  s_ins v = map (fun p => with_sig (fst p) (electrum_script (snd p)) (si_seq (fst p))) (combine ins1 xs) ++ i :: ins2 ->
  length xs = length ins1 -> Forall einput_ok xs -> Forall key_on_curve xs -> len (si_sig i) <> 87 ->
  exists e', parse e (electrum_magic ++ wire_tx v ++ rest) = Ok (e', 6 + len (wire_tx v), rest) /\ el_status e' = FAILED /\ forall st, parse e' st = Ok (e', 0, st).
Proof.
  intros e v ins1 xs i ins2 rest D K W NI NO SE LX OK OC N. rewrite legacy_front by auto. destruct K as (_ & _ & FI & _).
  assert (I : in_ok i) by (rewrite SE in FI; apply Forall_app in FI as (_ & FI); exact (Forall_inv FI)).
  assert (LL : (length ins1 < length (s_ins v))%nat) by (rewrite SE, app_length, map_length, combine_length; cbn [length]; lia).
  destruct (metas_refused ins1 xs i ins2 (new_metas junk (length (s_ins v))) LX ltac:(unfold new_metas; rewrite map_length, seq_length; exact LL) (fresh_new _) OK OC I N) as (ins & ms & E).
  set (nm := new_metas junk (length (s_ins v))) in *. rewrite SE. change (fun p : s_txin * s_einput => with_sig (fst p) (electrum_script (snd p)) (si_seq (fst p))) with (fun p : s_txin * s_einput => legacy_in (fst p) (snd p)).
  rewrite E. cbn [bind]. eexists. split; [reflexivity|]. split; [reflexivity|]. intros st. unfold el_parse. reflexivity.
Qed.

(** *** The five bytes in front of the key *)
Definition any_in (w : list Z) (i : s_txin) (x : s_einput) : s_txin := with_sig i (w ++ xpub_bytes (e_key x) ++ e_path x) (si_seq i).
Lemma any_meta : forall w i x m, length w = 5%nat -> bytes_ok w -> em_hd m = hp_new -> einput_ok x -> key_on_curve x ->
  legacy_meta uncompress_pubkey pt_valid_bytes garbage (pin0 (any_in w i x)) m = Ok (cleared (pin0 (any_in w i x)), mkEm (key_of x) (e_first x) (e_second x) (em_amount m), false).
Proof.
  intros w i x m W5 BW M OK OC. destruct (script_87 x OK) as (B & L). unfold electrum_script in B, L. apply bytes_ok_app in B as (_ & B). rewrite len_app in L.
  change (len [1; 255; 76; 83; 255]) with 5 in L. set (t := xpub_bytes (e_key x) ++ e_path x) in *. unfold legacy_meta.
  assert (B' : bytes_ok (w ++ t)) by (apply bytes_ok_app; auto). assert (L' : len (w ++ t) = 87) by (rewrite len_app; unfold len at 1; rewrite W5; lia).
  change (ti_script (pin0 (any_in w i x))) with (parsed_script (w ++ t)).
  assert (WB : wire_bytes (w ++ t) = 87 :: w ++ t) by (unfold wire_bytes; rewrite L'; reflexivity).
  rewrite parsed_script_length by (auto; lia). rewrite WB, len_cons, L'. change (1 + 87 =? 88) with true. cbv iota.
  assert (S : serializes (script_to_stream (parsed_script (w ++ t))) (87 :: w ++ t)).
  { pose proof (script_serializes (parsed_script (w ++ t)) ltac:(apply parsed_script_wf; auto; lia)) as S. cbn [sc_arr parsed_script] in S. rewrite WB in S. exact S. }
  rewrite (serialize_full _ _ 88 S) by (cbn [length]; unfold len in L'; lia). cbn [bind snd fst].
  assert (K : skipn 6 (87 :: w ++ t) = t) by (do 5 (destruct w as [|? w]; [discriminate W5|]); destruct w; [reflexivity|discriminate W5]).
  rewrite K. unfold t at 1. rewrite M, key_reads by (auto; apply OK). cbn [bind fst snd]. change (hp_status (key_of x)) with DONE. cbv iota.
  destruct OK as (OK & A1 & A2 & _).
  set (a := (87 :: w) ++ xpub_bytes (e_key x)).
  assert (E : 87 :: w ++ t = a ++ e_path x) by (unfold a, t; rewrite <- app_assoc; reflexivity).
  assert (LA : length a = 84%nat).
  { unfold a. rewrite app_length. destruct (key_read garbage x OK OC) as (KL & _). unfold len in KL. cbn [length]. lia. }
  rewrite E. pose proof (nth_tail a (e_path x) 0 0 84 LA : nth 84 (a ++ e_path x) 0 = _) as N0. pose proof (nth_tail a (e_path x) 1 0 84 LA : nth 85 (a ++ e_path x) 0 = _) as N1.
  pose proof (nth_tail a (e_path x) 2 0 84 LA : nth 86 (a ++ e_path x) 0 = _) as N2. pose proof (nth_tail a (e_path x) 3 0 84 LA : nth 87 (a ++ e_path x) 0 = _) as N3.
  rewrite N0, N1, N2, N3. unfold e_path. cbn [le_bytes app nth]. rewrite !path_u16 by auto. reflexivity.
Qed.
Theorem five_bytes : forall e v i x w rest, el_status e = DONE -> tx_ok v -> s_ins v = [with_sig i (w ++ xpub_bytes (e_key x) ++ e_path x) (si_seq i)] -> len (s_outs v) < 253 ->
  length w = 5%nat -> bytes_ok w -> einput_ok x -> key_on_curve x ->
  exists e' m, parse e (electrum_magic ++ wire_tx v ++ rest) = Ok (e', 6 + len (wire_tx v), rest) /\ el_status e' = DONE /\ el_metas e' = Some [m] /\ meta_holds m x.
Proof.
  intros e v i x w rest D K SE NO W5 BW OK OC. assert (W : has_witness v = false) by (unfold has_witness; rewrite SE; reflexivity).
  rewrite legacy_front by (auto; rewrite SE; unfold len; cbn [length]; lia). rewrite SE. cbn [length]. change (with_sig i (w ++ xpub_bytes (e_key x) ++ e_path x) (si_seq i)) with (any_in w i x).
  pose proof (fresh_new 1) as F. unfold new_metas in *. cbn [seq map] in *. cbn [legacy_metas]. rewrite any_meta by (auto; exact (Forall_inv F)). cbn [bind].
  eexists. eexists. split; [reflexivity|]. split; [reflexivity|]. split; [reflexivity|]. apply holds_key; reflexivity.
Qed.
End Other.
