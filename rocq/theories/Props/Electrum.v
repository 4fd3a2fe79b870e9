(** C79-C81: Electrum's unsigned transactions (ElectrumTx): reading them, the fee, and signing by a wallet.
    [garbage] and [junk] are what uninitialised memory holds; [dsha], [hash160], [sha256] and [hmac512] the hash functions
    (any that give 32, 20, 32 and 64 bytes), [K] and [H] the constants of SHA-256 in the standard, [rz], [rzs] and [rks] the
    random numbers drawn. *)
From Coq Require Import Lia.
From Verif Require Import Base.Bytes Base.BytesFacts Spec.Bignum Spec.Codecs Spec.Hash Spec.Wire Spec.Pieces Spec.Objects Spec.Keys Spec.HD Spec.Scalar Spec.Signature Spec.Point Spec.Sighash Spec.Curve Spec.Schemes Spec.PSBT Spec.PSBTSign Spec.Electrum
  Model.Stream Model.Script Model.Tx Model.Signature Model.Bignum Model.Point Model.Hash Model.Sign Model.Networks Model.Keys Model.HD Model.PointOps Model.Electrum
  Proof.ScriptFacts Proof.HashInst Proof.HashShape Proof.CurveFacts Proof.EcTable Proof.SignExample Proof.SchemeCases Proof.ElectrumProps Proof.ElectrumChunks Proof.ElectrumCuts Proof.ElectrumPieces Proof.ElectrumOther Proof.ElectrumReal Proof.ElectrumFlat.
Open Scope Z_scope.

(** ** Examples: keys with the generator as their point, transactions with any number of equal inputs *)
Definition ex_key (ty : script_type) : s_xpub := {| x_test := false; x_type := ty; x_depth := 3; x_fp := [1; 2; 3; 4]; x_child := 0; x_chain := repeat 9 32; x_point := coords gen_x gen_y |}.
Definition ex_inp (ty : script_type) (a : Z) : s_einput := {| e_key := ex_key ty; e_first := 0; e_second := 5; e_amount := a; e_how := repeat 3 7 |}.
Definition ex_txin : s_txin := {| si_prev := repeat 4 32; si_vout := 1; si_sig := []; si_seq := 7; si_wit := [] |}.
Definition ex_etx (n : nat) : s_tx := {| s_version := 2; s_ins := repeat ex_txin n; s_outs := [{| so_value := 300; so_script := [81; 81] |}]; s_lock := 77 |}.
Definition ex_account : hdpriv := mkHk SignExample.one (repeat 9 32) 3 (zeros 4) 0 Mainnet P2WPKH (zeros 4) DONE 0.
(** What a parse gives: status, amounts, bytes read and left; [None] is undefined behaviour. *)
Definition ex_amounts (n : nat) (a : Z) : option (pstatus * list Z * Z * nat) :=
  match el_parse uncompress_pubkey pt_valid_bytes (zeros 64) (fun _ => (0, 0, 0)) el_new (electrum_segwit (ex_etx n) (repeat (ex_inp P2WPKH a) n)) with
  | Ok (e, k, r) => Some (el_status e, match el_metas e with Some l => map em_amount l | None => [] end, k, length r)
  | UB => None
  end.
Lemma ex_repeat : forall n b, byte_ok b -> bytes_ok (repeat b n).
Proof. intros. apply Forall_forall. intros x I. apply repeat_spec in I as ->. auto. Qed.
Lemma ex_forall : forall (A : Type) (Q : A -> Prop) a n, Q a -> Forall Q (repeat a n).
Proof. intros. apply Forall_forall. intros x I. apply repeat_spec in I as ->. auto. Qed.
Lemma ex_etx_ok : forall n, tx_ok (ex_etx n) /\ no_witnesses (ex_etx n) /\ no_scripts (ex_etx n) /\ len (s_ins (ex_etx n)) = Z.of_nat n.
Proof.
  intros n. assert (L32 : len (repeat 4 32) = 32) by reflexivity.
  split; [|split; [apply ex_forall; reflexivity|split; [apply ex_forall; reflexivity|unfold len, ex_etx; cbn [s_ins]; rewrite repeat_length; reflexivity]]].
  unfold tx_ok, ex_etx. cbn [s_version s_lock s_ins s_outs]. split; [lia|]. split; [lia|]. split.
  - apply ex_forall. unfold in_ok, ex_txin. cbn [si_prev si_vout si_sig si_seq].
    repeat match goal with |- _ /\ _ => split end; try lia; try reflexivity; try (apply ex_repeat; unfold byte_ok; lia); constructor.
  - constructor; [|constructor]. unfold out_ok. cbn [so_value so_script].
    repeat match goal with |- _ /\ _ => split end; try lia; try reflexivity. repeat constructor; unfold byte_ok; lia.
Qed.
Lemma ex_inp_ok : forall ty a, slip132_pub false ty <> None -> 0 <= a < 2^64 -> einput_ok (ex_inp ty a) /\ key_on_curve (ex_inp ty a).
Proof.
  intros ty a S A. split; [|exists gen_x, gen_y; split; [exact gen_point|reflexivity]].
  assert (P : length (coords gen_x gen_y) = 64%nat) by (vm_compute; reflexivity).
  assert (B : bytes_ok (coords gen_x gen_y)) by (apply Forall_forall; intros b I; assert (X : forallb (fun b => (0 <=? b) && (b <? 256)) (coords gen_x gen_y) = true) by (vm_compute; reflexivity); rewrite forallb_forall in X; specialize (X b I); unfold byte_ok; lia).
  unfold einput_ok, xpub_ok, ex_inp, ex_key. cbn [e_key e_first e_second e_amount e_how x_test x_type x_depth x_fp x_child x_chain x_point].
  split; [|repeat split; lia]. split; [exact S|]. split; [unfold byte_ok; lia|]. split; [reflexivity|]. split; [repeat constructor; unfold byte_ok; lia|].
  split; [lia|]. split; [reflexivity|]. split; [apply ex_repeat; unfold byte_ok; lia|]. split; [exact P|exact B].
Qed.

(** * C79: what a parse gives *)
(** A segwit transaction is read completely: the transaction, keys, indexes and amounts. Missing: more than five inputs,
    for which it is false (see below). *)
Theorem C79_segwit_partial : forall garbage junk e v xs rest, el_status e = DONE -> tx_ok v -> no_witnesses v -> 1 <= len (s_ins v) <= 5 -> len (s_outs v) < 253 ->
  length xs = length (s_ins v) -> Forall einput_ok xs -> Forall key_on_curve xs ->
  exists e', el_parse uncompress_pubkey pt_valid_bytes garbage junk e (electrum_segwit v xs ++ rest) = Ok (e', len (electrum_segwit v xs), rest) /\
    el_status e' = DONE /\ electrum_holds e' v xs /\ amounts_hold e' xs.
Proof. exact segwit_ok. Qed.
Print Assumptions C79_segwit_partial.
Example C79_segwit_example : forall garbage junk, exists e', 
  el_parse uncompress_pubkey pt_valid_bytes garbage junk el_new (electrum_segwit (ex_etx 2) [ex_inp P2WPKH 50000000; ex_inp P2SH_P2WPKH 1] ++ [7]) = Ok (e', 6 + 101 + 2 * 102 + 4, [7]) /\
  el_status e' = DONE /\ electrum_holds e' (ex_etx 2) [ex_inp P2WPKH 50000000; ex_inp P2SH_P2WPKH 1] /\ amounts_hold e' [ex_inp P2WPKH 50000000; ex_inp P2SH_P2WPKH 1].
Proof.
  intros garbage junk. destruct (ex_etx_ok 2) as (T & W & _ & L).
  destruct (ex_inp_ok P2WPKH 50000000 ltac:(discriminate) ltac:(lia)) as (O1 & C1). destruct (ex_inp_ok P2SH_P2WPKH 1 ltac:(discriminate) ltac:(lia)) as (O2 & C2).
  destruct (C79_segwit_partial garbage junk el_new (ex_etx 2) [ex_inp P2WPKH 50000000; ex_inp P2SH_P2WPKH 1] [7] eq_refl T W ltac:(rewrite L; lia) eq_refl eq_refl
    (Forall_cons _ O1 (Forall_cons _ O2 (Forall_nil _))) (Forall_cons _ C1 (Forall_cons _ C2 (Forall_nil _)))) as (e' & P & Q).
  exists e'. split; [|exact Q]. rewrite P. assert (E : len (electrum_segwit (ex_etx 2) [ex_inp P2WPKH 50000000; ex_inp P2SH_P2WPKH 1]) = 6 + 101 + 2 * 102 + 4) by (vm_compute; reflexivity). rewrite E. reflexivity.
Qed.
(** The same in pieces: cut anywhere behind the first bytes of the inputs' data, the pieces give the object that one parse of
    everything gives. A first piece that ends earlier is below. *)
Theorem C79_chunks_same_partial : forall garbage junk e v xs rest c cs, el_status e = DONE -> tx_ok v -> no_witnesses v -> 1 <= len (s_ins v) <= 5 -> len (s_outs v) < 253 ->
  length xs = length (s_ins v) -> Forall einput_ok xs -> Forall key_on_curve xs ->
  concat (c :: cs) = electrum_segwit v xs ++ rest -> 6 + len (before_witness v) + len (s_ins v) <= len c ->
  exists e', feed (el_parse uncompress_pubkey pt_valid_bytes garbage junk) el_status e (c :: cs) = Ok (e', len (electrum_segwit v xs), rest) /\
    el_parse uncompress_pubkey pt_valid_bytes garbage junk e (electrum_segwit v xs ++ rest) = Ok (e', len (electrum_segwit v xs), rest) /\
    el_status e' = DONE /\ electrum_holds e' v xs /\ amounts_hold e' xs.
Proof. exact segwit_chunks. Qed.
Print Assumptions C79_chunks_same_partial.
(** The first 109 bytes, then one byte at a time: cut inside the amounts, keys, indexes and the lock time. *)
Definition ex_cut (bs : list Z) : list (list Z) := firstn 109 bs :: map (fun b => [b]) (skipn 109 bs).
Lemma ex_cut_concat : forall bs, concat (ex_cut bs) = bs.
Proof.
  intros bs. unfold ex_cut. cbn [concat]. assert (E : forall l : list Z, concat (map (fun b => [b]) l) = l) by (induction l as [|b l IH]; cbn; [|rewrite IH]; reflexivity).
  rewrite E. apply firstn_skipn.
Qed.
Example C79_chunks_example : forall garbage junk, exists e',
  feed (el_parse uncompress_pubkey pt_valid_bytes garbage junk) el_status el_new (ex_cut (electrum_segwit (ex_etx 2) [ex_inp P2WPKH 50000000; ex_inp P2SH_P2WPKH 1] ++ [7])) = Ok (e', len (electrum_segwit (ex_etx 2) [ex_inp P2WPKH 50000000; ex_inp P2SH_P2WPKH 1]), [7]) /\
  amounts_hold e' [ex_inp P2WPKH 50000000; ex_inp P2SH_P2WPKH 1].
Proof.
  intros garbage junk. destruct (ex_etx_ok 2) as (T & W & _ & L).
  destruct (ex_inp_ok P2WPKH 50000000 ltac:(discriminate) ltac:(lia)) as (O1 & C1). destruct (ex_inp_ok P2SH_P2WPKH 1 ltac:(discriminate) ltac:(lia)) as (O2 & C2).
  set (w := electrum_segwit (ex_etx 2) [ex_inp P2WPKH 50000000; ex_inp P2SH_P2WPKH 1] ++ [7]).
  assert (LC : 6 + len (before_witness (ex_etx 2)) + len (s_ins (ex_etx 2)) <= len (firstn 109 w)) by (vm_compute; discriminate).
  destruct (C79_chunks_same_partial garbage junk el_new (ex_etx 2) [ex_inp P2WPKH 50000000; ex_inp P2SH_P2WPKH 1] [7] (firstn 109 w) (map (fun b => [b]) (skipn 109 w)) eq_refl T W ltac:(rewrite L; lia) eq_refl eq_refl
    (Forall_cons _ O1 (Forall_cons _ O2 (Forall_nil _))) (Forall_cons _ C1 (Forall_cons _ C2 (Forall_nil _))) (ex_cut_concat w) LC) as (e' & P & _ & _ & _ & A).
  exists e'. split; [exact P|exact A].
Qed.
(** Cut anywhere, also inside the magic bytes and the transaction: every piece that is not empty, except that no piece ends at
    an unlucky place inside the length of the last output's script (a finding of C17). *)
Theorem C79_chunks_partial : forall garbage junk e v xs rest chunks, el_status e = DONE -> tx_ok v -> no_witnesses v -> 1 <= len (s_ins v) <= 5 -> len (s_outs v) < 253 ->
  (forall os o a b, s_outs v = os ++ [o] -> chunks = a ++ b ->
     ~ unlucky (len (so_script o)) (6 + len (before_witness v) - len (concat a))) ->
  length xs = length (s_ins v) -> Forall einput_ok xs -> Forall key_on_curve xs ->
  Forall (fun c => c <> [] /\ bytes_ok c) chunks -> concat chunks = electrum_segwit v xs ++ rest ->
  exists e', feed (el_parse uncompress_pubkey pt_valid_bytes garbage junk) el_status e chunks = Ok (e', len (electrum_segwit v xs), rest) /\
    el_status e' = DONE /\ electrum_holds e' v xs /\ amounts_hold e' xs.
Proof. exact segwit_pieces. Qed.
Print Assumptions C79_chunks_partial.
(** One byte at a time. *)
Definition ex_bytes (bs : list Z) : list (list Z) := map (fun b => [b]) bs.
Lemma ex_bytes_concat : forall bs, concat (ex_bytes bs) = bs.
Proof. induction bs as [|b l IH]; [reflexivity|]. change (concat (ex_bytes (b :: l))) with (b :: concat (ex_bytes l)). rewrite IH. reflexivity. Qed.
Lemma ex_bytes_ok : forall bs, forallb (fun b => (0 <=? b) && (b <? 256)) bs = true -> Forall (fun c => c <> [] /\ bytes_ok c) (ex_bytes bs).
Proof.
  intros bs E. apply bytes_ok_bool in E. unfold ex_bytes. apply Forall_map. eapply Forall_impl; [|exact E]. intros b B. cbv beta. split; [discriminate|constructor; [exact B|constructor]].
Qed.
Example C79_pieces_example : forall garbage junk, exists e',
  feed (el_parse uncompress_pubkey pt_valid_bytes garbage junk) el_status el_new (ex_bytes (electrum_segwit (ex_etx 2) [ex_inp P2WPKH 50000000; ex_inp P2SH_P2WPKH 1] ++ [7])) = Ok (e', len (electrum_segwit (ex_etx 2) [ex_inp P2WPKH 50000000; ex_inp P2SH_P2WPKH 1]), [7]) /\
  electrum_holds e' (ex_etx 2) [ex_inp P2WPKH 50000000; ex_inp P2SH_P2WPKH 1].
Proof.
  intros garbage junk. destruct (ex_etx_ok 2) as (T & W & _ & L).
  destruct (ex_inp_ok P2WPKH 50000000 ltac:(discriminate) ltac:(lia)) as (O1 & C1). destruct (ex_inp_ok P2SH_P2WPKH 1 ltac:(discriminate) ltac:(lia)) as (O2 & C2).
  set (w := electrum_segwit (ex_etx 2) [ex_inp P2WPKH 50000000; ex_inp P2SH_P2WPKH 1] ++ [7]).
  assert (B : forallb (fun b => (0 <=? b) && (b <? 256)) w = true) by (vm_compute; reflexivity).
  assert (SO : forall os o a b, s_outs (ex_etx 2) = os ++ [o] -> ex_bytes w = a ++ b -> ~ unlucky (len (so_script o)) (6 + len (before_witness (ex_etx 2)) - len (concat a))).
  { assert (X : Forall (fun o => len (so_script o) < 253) (s_outs (ex_etx 2))) by (repeat constructor).
    intros os o a b Q _. rewrite Q in X. apply Forall_app in X as [_ X]. inversion X as [|? ? X1 _]; subst. pose proof (len_nonneg _ (so_script o)).
    unfold unlucky, compact_size. destruct (Z.ltb_spec (len (so_script o)) 253); [|lia]. rewrite len_cons, len_nil. lia. }
  destruct (C79_chunks_partial garbage junk el_new (ex_etx 2) [ex_inp P2WPKH 50000000; ex_inp P2SH_P2WPKH 1] [7] (ex_bytes w) eq_refl T W ltac:(rewrite L; lia) eq_refl
    SO eq_refl
    (Forall_cons _ O1 (Forall_cons _ O2 (Forall_nil _))) (Forall_cons _ C1 (Forall_cons _ C2 (Forall_nil _))) (ex_bytes_ok w B) (ex_bytes_concat w)) as (e' & P & _ & H & _).
  exists e'. split; [exact P|exact H].
Qed.
(** A legacy transaction: the format has no amounts, and those of the object are whatever the memory held. *)
Theorem C79_legacy : forall garbage junk e v xs rest, el_status e = DONE -> tx_ok v -> no_witnesses v -> no_scripts v -> 1 <= len (s_ins v) < 253 -> len (s_outs v) < 253 ->
  length xs = length (s_ins v) -> Forall einput_ok xs -> Forall key_on_curve xs ->
  exists e' ms, el_parse uncompress_pubkey pt_valid_bytes garbage junk e (electrum_legacy v xs ++ rest) = Ok (e', len (electrum_legacy v xs), rest) /\
    el_status e' = DONE /\ electrum_holds e' v xs /\ el_metas e' = Some ms /\ map em_amount ms = map (fun j => snd (junk j)) (seq 0 (length xs)).
Proof. exact legacy_ok. Qed.
Print Assumptions C79_legacy.
Example C79_legacy_example : forall garbage junk, exists e' ms,
  el_parse uncompress_pubkey pt_valid_bytes garbage junk el_new (electrum_legacy (ex_etx 2) (repeat (ex_inp UNKNOWN_TYPE 5) 2)) = Ok (e', 6 + 277, []) /\
  el_status e' = DONE /\ electrum_holds e' (ex_etx 2) (repeat (ex_inp UNKNOWN_TYPE 5) 2) /\ el_metas e' = Some ms /\ map em_amount ms = [snd (junk 0%nat); snd (junk 1%nat)].
Proof.
  intros garbage junk. destruct (ex_etx_ok 2) as (T & W & S & L). destruct (ex_inp_ok UNKNOWN_TYPE 5 ltac:(discriminate) ltac:(lia)) as (O1 & C1).
  destruct (C79_legacy garbage junk el_new (ex_etx 2) (repeat (ex_inp UNKNOWN_TYPE 5) 2) [] eq_refl T W S ltac:(rewrite L; lia) eq_refl eq_refl (ex_forall _ _ _ _ O1) (ex_forall _ _ _ _ C1)) as (e' & ms & P & Q).
  exists e', ms. split; [|exact Q]. rewrite app_nil_r in P. rewrite P. assert (E : len (electrum_legacy (ex_etx 2) (repeat (ex_inp UNKNOWN_TYPE 5) 2)) = 6 + 277) by (vm_compute; reflexivity). rewrite E. reflexivity.
Qed.
(** And in any pieces that are not empty: the same object as in one parse. *)
Theorem C79_legacy_chunks : forall garbage junk e v xs rest chunks, el_status e = DONE -> tx_ok v -> no_witnesses v -> no_scripts v -> 1 <= len (s_ins v) < 253 -> len (s_outs v) < 253 ->
  length xs = length (s_ins v) -> Forall einput_ok xs -> Forall key_on_curve xs ->
  Forall (fun c => c <> [] /\ bytes_ok c) chunks -> concat chunks = electrum_legacy v xs ++ rest ->
  exists e', feed (el_parse uncompress_pubkey pt_valid_bytes garbage junk) el_status e chunks = Ok (e', len (electrum_legacy v xs), rest) /\
    el_parse uncompress_pubkey pt_valid_bytes garbage junk e (electrum_legacy v xs ++ rest) = Ok (e', len (electrum_legacy v xs), rest) /\
    el_status e' = DONE /\ electrum_holds e' v xs.
Proof. exact legacy_pieces. Qed.
Print Assumptions C79_legacy_chunks.
Example C79_legacy_chunks_example : forall garbage junk, exists e',
  feed (el_parse uncompress_pubkey pt_valid_bytes garbage junk) el_status el_new (ex_bytes (electrum_legacy (ex_etx 2) (repeat (ex_inp UNKNOWN_TYPE 5) 2) ++ [1; 2])) = Ok (e', len (electrum_legacy (ex_etx 2) (repeat (ex_inp UNKNOWN_TYPE 5) 2)), [1; 2]) /\
  electrum_holds e' (ex_etx 2) (repeat (ex_inp UNKNOWN_TYPE 5) 2).
Proof.
  intros garbage junk. destruct (ex_etx_ok 2) as (T & W & S & L). destruct (ex_inp_ok UNKNOWN_TYPE 5 ltac:(discriminate) ltac:(lia)) as (O1 & C1).
  set (w := electrum_legacy (ex_etx 2) (repeat (ex_inp UNKNOWN_TYPE 5) 2) ++ [1; 2]).
  assert (B : forallb (fun b => (0 <=? b) && (b <? 256)) w = true) by (vm_compute; reflexivity).
  destruct (C79_legacy_chunks garbage junk el_new (ex_etx 2) (repeat (ex_inp UNKNOWN_TYPE 5) 2) [1; 2] (ex_bytes w) eq_refl T W S ltac:(rewrite L; lia) eq_refl eq_refl (ex_forall _ _ _ _ O1) (ex_forall _ _ _ _ C1)
    (ex_bytes_ok w B) (ex_bytes_concat w)) as (e' & P & _ & _ & H).
  exists e'. split; [exact P|exact H].
Qed.
(** Other bytes. The first byte that differs from the magic ends the parse with a failure, for good. *)
Theorem C79_magic : forall garbage junk e p b b' q r, el_status e = DONE -> electrum_magic = p ++ b' :: r -> b <> b' ->
  exists e', el_parse uncompress_pubkey pt_valid_bytes garbage junk e (p ++ b :: q) = Ok (e', len p + 1, q) /\ el_status e' = FAILED /\
    forall st, el_parse uncompress_pubkey pt_valid_bytes garbage junk e' st = Ok (e', 0, st).
Proof. exact magic_refused. Qed.
Print Assumptions C79_magic.
(** "EPTF", ff 01: a later version of the format. *)
Example C79_magic_example : forall garbage junk, exists e',
  el_parse uncompress_pubkey pt_valid_bytes garbage junk el_new (chars "EPTF" ++ [255; 1; 2; 3]) = Ok (e', 6, [2; 3]) /\ el_status e' = FAILED.
Proof. intros garbage junk. destruct (C79_magic garbage junk el_new [69; 80; 84; 70; 255] 1 0 [2; 3] [] eq_refl eq_refl ltac:(discriminate)) as (e' & P & S & _). exists e'. split; [exact P|exact S]. Qed.
(** A transaction without witnesses one of whose scripts has not the length of Electrum's, after any number of Electrum's, is refused. *)
Theorem C79_plain : forall garbage junk e v ins1 xs i ins2 rest, el_status e = DONE -> tx_ok v -> has_witness v = false -> 1 <= len (s_ins v) < 253 -> len (s_outs v) < 253 ->
  s_ins v = map (fun p => with_sig (fst p) (electrum_script (snd p)) (si_seq (fst p))) (combine ins1 xs) ++ i :: ins2 ->
  length xs = length ins1 -> Forall einput_ok xs -> Forall key_on_curve xs -> len (si_sig i) <> 87 ->
  exists e', el_parse uncompress_pubkey pt_valid_bytes garbage junk e (electrum_magic ++ wire_tx v ++ rest) = Ok (e', 6 + len (wire_tx v), rest) /\ el_status e' = FAILED /\
    forall st, el_parse uncompress_pubkey pt_valid_bytes garbage junk e' st = Ok (e', 0, st).
Proof. exact plain_refused. Qed.
Print Assumptions C79_plain.
(** An ordinary unsigned transaction behind the magic. *)
Example C79_plain_example : forall garbage junk, exists e',
  el_parse uncompress_pubkey pt_valid_bytes garbage junk el_new (electrum_magic ++ wire_tx (ex_etx 2)) = Ok (e', 6 + len (wire_tx (ex_etx 2)), []) /\ el_status e' = FAILED.
Proof.
  intros garbage junk. destruct (ex_etx_ok 2) as (T & W & S & L).
  destruct (C79_plain garbage junk el_new (ex_etx 2) [] [] ex_txin [ex_txin] [] eq_refl T eq_refl ltac:(rewrite L; lia) eq_refl eq_refl eq_refl (Forall_nil _) (Forall_nil _) ltac:(discriminate)) as (e' & P & F & _).
  exists e'. rewrite app_nil_r in P. split; [exact P|exact F].
Qed.
(** But the five bytes in front of the key may be any: they are not compared. *)
Theorem C79_five_bytes_refuted : forall garbage junk e v i x w rest, el_status e = DONE -> tx_ok v -> s_ins v = [with_sig i (w ++ xpub_bytes (e_key x) ++ e_path x) (si_seq i)] -> len (s_outs v) < 253 ->
  length w = 5%nat -> bytes_ok w -> einput_ok x -> key_on_curve x ->
  exists e' m, el_parse uncompress_pubkey pt_valid_bytes garbage junk e (electrum_magic ++ wire_tx v ++ rest) = Ok (e', 6 + len (wire_tx v), rest) /\ el_status e' = DONE /\ el_metas e' = Some [m] /\ meta_holds m x.
Proof. exact five_bytes. Qed.
Print Assumptions C79_five_bytes_refuted.
(** Five zeros. *)
Definition ex_odd : s_tx :=
  {| s_version := 2; s_ins := [with_sig ex_txin (zeros 5 ++ xpub_bytes (ex_key UNKNOWN_TYPE) ++ e_path (ex_inp UNKNOWN_TYPE 5)) 7]; s_outs := s_outs (ex_etx 1); s_lock := 77 |}.
Example C79_five_bytes_example : forall garbage junk, exists e' m,
  el_parse uncompress_pubkey pt_valid_bytes garbage junk el_new (electrum_magic ++ wire_tx ex_odd) = Ok (e', 6 + len (wire_tx ex_odd), []) /\ el_status e' = DONE /\ el_metas e' = Some [m] /\ meta_holds m (ex_inp UNKNOWN_TYPE 5).
Proof.
  intros garbage junk. destruct (ex_etx_ok 1) as ((V & LK & FI & FO) & _). destruct (ex_inp_ok UNKNOWN_TYPE 5 ltac:(discriminate) ltac:(lia)) as (O1 & C1).
  assert (T : tx_ok ex_odd).
  { split; [exact V|]. split; [exact LK|]. split; [|exact FO]. constructor; [|constructor]. destruct (Forall_inv FI) as (P1 & P2 & P3 & P4 & P5 & P6 & P7).
    split; [exact P1|]. split; [exact P2|]. split; [exact P3|]. split; [exact P4|]. split; [apply bytes_ok_bool; vm_compute; reflexivity|]. split; [vm_compute; reflexivity|exact P7]. }
  destruct (C79_five_bytes_refuted garbage junk el_new ex_odd ex_txin (ex_inp UNKNOWN_TYPE 5) (zeros 5) [] eq_refl T eq_refl eq_refl eq_refl ltac:(apply bytes_ok_bool; reflexivity) O1 C1) as (e' & m & P & Q).
  exists e', m. rewrite app_nil_r in P. split; [exact P|exact Q].
Qed.
(** Six inputs and more: after the first witness has failed, each of the other inputs has read one byte, and those after the
    fifth take bytes of the first amount. If these are all at least 253 they are missing in the amount, and nothing else is
    wrong: the object says that it is done. *)
Theorem C79_many_inputs_refuted : forall garbage junk e v x xs rest, el_status e = DONE -> tx_ok v -> no_witnesses v -> 6 <= len (s_ins v) <= 13 -> len (s_outs v) < 253 ->
  length (x :: xs) = length (s_ins v) -> Forall einput_ok (x :: xs) -> Forall key_on_curve (x :: xs) ->
  let k := (length (s_ins v) - 5)%nat in
  Forall (fun b => 253 <= b) (firstn k (le_bytes 8 (e_amount x))) ->
  exists e' ms, el_parse uncompress_pubkey pt_valid_bytes garbage junk e (electrum_segwit v (x :: xs) ++ rest) = Ok (e', len (electrum_segwit v (x :: xs)), rest) /\
    el_status e' = DONE /\ electrum_holds e' v (x :: xs) /\
    el_metas e' = Some ms /\ map em_amount ms = (e_amount x - e_amount x mod 256 ^ Z.of_nat k) :: map e_amount xs /\ ~ amounts_hold e' (x :: xs).
Proof. exact segwit_lost. Qed.
Print Assumptions C79_many_inputs_refuted.
Example C79_many_inputs_example : forall garbage junk, exists e' ms,
  el_parse uncompress_pubkey pt_valid_bytes garbage junk el_new (electrum_segwit (ex_etx 6) (repeat (ex_inp P2WPKH 1021) 6) ++ []) = Ok (e', len (electrum_segwit (ex_etx 6) (repeat (ex_inp P2WPKH 1021) 6)), []) /\
  el_status e' = DONE /\ el_metas e' = Some ms /\ map em_amount ms = [768; 1021; 1021; 1021; 1021; 1021].
Proof.
  intros garbage junk. destruct (ex_etx_ok 6) as (T & W & _ & L). destruct (ex_inp_ok P2WPKH 1021 ltac:(discriminate) ltac:(lia)) as (O1 & C1).
  destruct (C79_many_inputs_refuted garbage junk el_new (ex_etx 6) (ex_inp P2WPKH 1021) (repeat (ex_inp P2WPKH 1021) 5) [] eq_refl T W ltac:(rewrite L; lia) eq_refl eq_refl (ex_forall _ _ _ 6%nat O1) (ex_forall _ _ _ 6%nat C1)) as (e' & ms & P & S & _ & M & A & _).
  { apply Forall_cons; [|constructor]. vm_compute. discriminate. }
  exists e', ms. split; [exact P|]. split; [exact S|]. split; [exact M|exact A].
Qed.
(** Other amounts make it read on at other places: half a bitcoin becomes nothing, with status done; a hundred satoshi
    make it hang. Five inputs are read well. *)
Example C79_many_inputs_computed :
  ex_amounts 6 50000000 = Some (DONE, [0; 0; 0; 0; 0; 0], 887, O) /\ ex_amounts 6 100 = None.
Proof. vm_compute. split; reflexivity. Qed.
(** Version bytes of no known key: the parser never returns. The wire may say so for any input. *)
Theorem C79_unknown_key_refuted : forall garbage junk e v good x px c rest, el_status e = DONE -> tx_ok v -> 1 <= len (s_ins v) <= 5 -> len (s_outs v) < 253 ->
  (length good < length (s_ins v))%nat -> Forall einput_ok good -> Forall key_on_curve good -> 0 <= e_first x < 2^16 -> 0 <= e_second x < 2^16 -> 0 <= e_amount x < 2^64 -> length (e_how x) = 7%nat ->
  length px = 4%nat -> (forall test t w, slip132_pub test t = Some w -> px <> be_bytes 4 w) ->
  el_parse uncompress_pubkey pt_valid_bytes garbage junk e
    (electrum_magic ++ before_witness v ++ flat_map (fun y => witness_with (xpub_bytes (e_key y)) y) good ++
     ([254; 255; 255; 255; 255] ++ le_bytes 8 (e_amount x) ++ e_how x ++ px ++ c :: rest)) = UB.
Proof. exact unknown_endless. Qed.
Print Assumptions C79_unknown_key_refuted.
Example C79_unknown_key_example : forall garbage junk c rest,
  el_parse uncompress_pubkey pt_valid_bytes garbage junk el_new
    (electrum_magic ++ before_witness (ex_etx 2) ++ flat_map (fun y => witness_with (xpub_bytes (e_key y)) y) [ex_inp P2WPKH 70000] ++
     ([254; 255; 255; 255; 255] ++ le_bytes 8 5 ++ repeat 3 7 ++ [0; 0; 0; 0] ++ c :: rest)) = UB.
Proof.
  intros garbage junk c rest. destruct (ex_etx_ok 2) as (T & W & _ & L). destruct (ex_inp_ok P2WPKH 70000 ltac:(discriminate) ltac:(lia)) as (O1 & C1).
  apply (C79_unknown_key_refuted garbage junk el_new (ex_etx 2) [ex_inp P2WPKH 70000] (ex_inp P2WPKH 5) [0; 0; 0; 0] c rest); try (cbn [ex_inp e_first e_second e_amount e_how]; lia); auto; try reflexivity.
  intros test t w E Q. destruct test, t; cbn [slip132_pub] in E; try discriminate E; injection E as <-; revert Q; vm_compute; discriminate.
Qed.
(** A key that is no point of the curve is not refused: its coordinates are what the stack held. *)
Theorem C79_off_curve_refuted : forall garbage junk e v x w c xs rest, el_status e = DONE -> tx_ok v -> no_witnesses v -> len (s_ins v) = 1 -> len (s_outs v) < 253 -> einput_ok x ->
  slip132_pub (x_test (e_key x)) (x_type (e_key x)) = Some w -> c = 2 \/ c = 3 -> bytes_ok xs -> length xs = 32%nat ->
  (forall y, on_curve (be_val 256 xs) y -> y mod 2 <> c mod 2) ->
  let bs := segwit_with (fun x => let k := e_key x in bip32_bytes w (x_depth k) (x_fp k) (x_child k) (x_chain k) (c :: xs)) v [x] in
  exists e' m, el_parse uncompress_pubkey pt_valid_bytes garbage junk e (bs ++ rest) = Ok (e', len bs, rest) /\ el_status e' = DONE /\ tx_holds (el_tx e') v /\ el_metas e' = Some [m] /\
    hp_point (em_hd m) = garbage /\ em_d0 m = e_first x /\ em_d1 m = e_second x /\ em_amount m = e_amount x.
Proof. exact off_curve_taken. Qed.
Print Assumptions C79_off_curve_refuted.
Example C79_off_curve_example : forall garbage junk, exists e' m n,
  el_parse uncompress_pubkey pt_valid_bytes garbage junk el_new
    (segwit_with (fun x => let k := e_key x in bip32_bytes 78792518 (x_depth k) (x_fp k) (x_child k) (x_chain k) (2 :: repeat 255 32)) (ex_etx 1) [ex_inp P2WPKH 70000] ++ []) = Ok (e', n, []) /\
  el_status e' = DONE /\ el_metas e' = Some [m] /\ hp_point (em_hd m) = garbage.
Proof.
  intros garbage junk. destruct (ex_etx_ok 1) as (T & W & _ & L). destruct (ex_inp_ok P2WPKH 70000 ltac:(discriminate) ltac:(lia)) as (O1 & C1).
  destruct (C79_off_curve_refuted garbage junk el_new (ex_etx 1) (ex_inp P2WPKH 70000) 78792518 2 (repeat 255 32) [] eq_refl T W ltac:(rewrite L; lia) eq_refl O1 eq_refl (or_introl eq_refl)
    (ex_repeat 32 255 ltac:(unfold byte_ok; lia)) eq_refl) as (e' & m & P & S & _ & M & G & _).
  { intros y (O & _). exfalso. revert O. vm_compute. intros [_ X]. discriminate X. }
  exists e', m. eexists. split; [exact P|]. split; [exact S|]. split; [exact M|exact G].
Qed.

(** * C80: the fee *)
Theorem C80_fee : forall e v xs, electrum_holds e v xs -> amounts_hold e xs -> Forall einput_ok xs -> Forall (fun x => e_amount x <> 0) xs ->
  total (map e_amount xs) < 2^64 -> total (map so_value (s_outs v)) < 2^64 ->
  el_fee e = Ok (Z.max 0 (total (map e_amount xs) - total (map so_value (s_outs v)))).
Proof. exact fee_ok. Qed.
Print Assumptions C80_fee.
(** With an input whose amount is not known, the fee is 0. *)
Theorem C80_unknown : forall e v xs, electrum_holds e v xs -> amounts_hold e xs -> Exists (fun x => e_amount x = 0) xs -> el_fee e = Ok 0.
Proof. exact fee_unknown. Qed.
Print Assumptions C80_unknown.
(** Outputs of more than 2^64 in total: a fee is given although the inputs do not pay for the outputs. *)
Theorem C80_wraps_refuted : forall e v xs s, electrum_holds e v xs -> amounts_hold e xs -> Forall einput_ok xs -> Forall (fun x => e_amount x <> 0) xs ->
  total (map e_amount xs) < 2^64 -> 0 <= s <= total (map e_amount xs) -> total (map so_value (s_outs v)) = 2^64 + s -> el_fee e = Ok (total (map e_amount xs) - s).
Proof. exact fee_wraps. Qed.
Print Assumptions C80_wraps_refuted.
(** For a legacy transaction any fee may come out, depending on what the memory held. *)
Theorem C80_legacy_refuted : forall garbage e v x rest f, el_status e = DONE -> tx_ok v -> no_witnesses v -> no_scripts v -> len (s_ins v) = 1 -> len (s_outs v) < 253 ->
  einput_ok x -> key_on_curve x -> 0 <= f -> 0 < f + total (map so_value (s_outs v)) < 2^64 ->
  exists junk e', el_parse uncompress_pubkey pt_valid_bytes garbage junk e (electrum_legacy v [x] ++ rest) = Ok (e', len (electrum_legacy v [x]), rest) /\ el_status e' = DONE /\ el_fee e' = Ok f.
Proof. exact legacy_fee. Qed.
Print Assumptions C80_legacy_refuted.
(** An object of which only a part has been read: asking for the fee, and signing, read through a NULL pointer. *)
Theorem C80_unfinished_refuted : forall garbage junk dsha hash160 sha256 hmac512 rz rzs rks account,
  exists e, el_parse uncompress_pubkey pt_valid_bytes garbage junk el_new (firstn 60 (electrum_segwit (ex_etx 2) (repeat (ex_inp P2WPKH 70000) 2))) = Ok (e, 60, []) /\
    el_status e = INCOMPLETE /\ el_fee e = UB /\ el_sign_code dsha hash160 sha256 hmac512 rz rzs rks e account = UB.
Proof.
  intros. eexists. split; [vm_compute; reflexivity|]. split; [reflexivity|]. split; reflexivity.
Qed.
Print Assumptions C80_unfinished_refuted.
Example C80_example : forall garbage junk, exists e, 
  el_parse uncompress_pubkey pt_valid_bytes garbage junk el_new (electrum_segwit (ex_etx 2) (repeat (ex_inp P2WPKH 70000) 2) ++ []) = Ok (e, 315, []) /\ el_fee e = Ok (140000 - 300).
Proof.
  intros garbage junk. destruct (ex_etx_ok 2) as (T & W & _ & L). destruct (ex_inp_ok P2WPKH 70000 ltac:(discriminate) ltac:(lia)) as (O1 & C1).
  destruct (C79_segwit_partial garbage junk el_new (ex_etx 2) (repeat (ex_inp P2WPKH 70000) 2) [] eq_refl T W ltac:(rewrite L; lia) eq_refl eq_refl (ex_forall _ _ _ _ O1) (ex_forall _ _ _ _ C1)) as (e & P & _ & EH & AH).
  assert (F : el_fee e = Ok (Z.max 0 (total (map e_amount (repeat (ex_inp P2WPKH 70000) 2)) - total (map so_value (s_outs (ex_etx 2)))))).
  { apply (C80_fee e (ex_etx 2) (repeat (ex_inp P2WPKH 70000) 2) EH AH (ex_forall _ _ _ _ O1)); [apply ex_forall; cbn [ex_inp e_amount]; lia| |]; vm_compute; reflexivity. }
  exists e. split; [|exact F].
  rewrite P. assert (E : len (electrum_segwit (ex_etx 2) (repeat (ex_inp P2WPKH 70000) 2)) = 315) by (vm_compute; reflexivity). rewrite E. reflexivity.
Qed.
Example C80_unknown_example : forall garbage junk, exists e n, 
  el_parse uncompress_pubkey pt_valid_bytes garbage junk el_new (electrum_segwit (ex_etx 2) [ex_inp P2WPKH 70000; ex_inp P2WPKH 0] ++ []) = Ok (e, n, []) /\ el_fee e = Ok 0.
Proof.
  intros garbage junk. destruct (ex_etx_ok 2) as (T & W & _ & L). destruct (ex_inp_ok P2WPKH 70000 ltac:(discriminate) ltac:(lia)) as (O1 & C1). destruct (ex_inp_ok P2WPKH 0 ltac:(discriminate) ltac:(lia)) as (O2 & C2).
  destruct (C79_segwit_partial garbage junk el_new (ex_etx 2) [ex_inp P2WPKH 70000; ex_inp P2WPKH 0] [] eq_refl T W ltac:(rewrite L; lia) eq_refl eq_refl
    (Forall_cons _ O1 (Forall_cons _ O2 (Forall_nil _))) (Forall_cons _ C1 (Forall_cons _ C2 (Forall_nil _)))) as (e & P & _ & EH & AH).
  exists e. eexists. split; [exact P|]. apply (C80_unknown e _ _ EH AH). apply Exists_cons_tl, Exists_cons_hd. reflexivity.
Qed.
(** Two outputs of 2^63 and 2^63 + 300 from one input of 70000: a fee of 69700. *)
Definition ex_rich : s_tx := {| s_version := 2; s_ins := [ex_txin]; s_outs := [{| so_value := 2^63; so_script := [81] |}; {| so_value := 2^63 + 300; so_script := [81] |}]; s_lock := 0 |}.
Example C80_wraps_example : forall garbage junk, exists e n, 
  el_parse uncompress_pubkey pt_valid_bytes garbage junk el_new (electrum_segwit ex_rich [ex_inp P2WPKH 70000] ++ []) = Ok (e, n, []) /\ el_status e = DONE /\ el_fee e = Ok 69700.
Proof.
  intros garbage junk. destruct (ex_etx_ok 1) as ((_ & _ & FI & _) & W & _ & L). destruct (ex_inp_ok P2WPKH 70000 ltac:(discriminate) ltac:(lia)) as (O1 & C1).
  assert (T : tx_ok ex_rich).
  { split; [cbn [ex_rich s_version]; lia|]. split; [cbn [ex_rich s_lock]; lia|]. split; [exact FI|].
    unfold ex_rich. cbn [s_outs]. constructor; [|constructor; [|constructor]]; unfold out_ok; cbn [so_value so_script];
    repeat match goal with |- _ /\ _ => split end; try lia; try reflexivity; repeat constructor; unfold byte_ok; lia. }
  assert (LE : 1 <= len (s_ins ex_rich) <= 5) by (vm_compute; split; discriminate).
  destruct (C79_segwit_partial garbage junk el_new ex_rich [ex_inp P2WPKH 70000] [] eq_refl T W LE eq_refl eq_refl
    (Forall_cons _ O1 (Forall_nil _)) (Forall_cons _ C1 (Forall_nil _))) as (e & P & D & EH & AH).
  exists e. eexists. split; [exact P|]. split; [exact D|].
  change 69700 with (total (map e_amount [ex_inp P2WPKH 70000]) - 300).
  apply (C80_wraps_refuted e ex_rich [ex_inp P2WPKH 70000] 300 EH AH (Forall_cons _ O1 (Forall_nil _))); [constructor; [cbn [ex_inp e_amount]; lia|constructor]| | |]; vm_compute; repeat split; discriminate.
Qed.
Example C80_legacy_example : forall garbage f, 0 <= f < 2^63 -> exists junk e',
  el_parse uncompress_pubkey pt_valid_bytes garbage junk el_new (electrum_legacy (ex_etx 1) [ex_inp UNKNOWN_TYPE 0] ++ []) = Ok (e', len (electrum_legacy (ex_etx 1) [ex_inp UNKNOWN_TYPE 0]), []) /\ el_status e' = DONE /\ el_fee e' = Ok f.
Proof.
  intros garbage f F. destruct (ex_etx_ok 1) as (T & W & S & L). destruct (ex_inp_ok UNKNOWN_TYPE 0 ltac:(discriminate) ltac:(lia)) as (O1 & C1).
  apply (C80_legacy_refuted garbage el_new (ex_etx 1) (ex_inp UNKNOWN_TYPE 0) [] f eq_refl T W S L eq_refl O1 C1 (proj1 F)). cbn [ex_etx s_outs map so_value total fold_right]. lia.
Qed.

(** * C81: signing *)
(** The inputs with the account's key are signed, the others left alone, and the number is returned modulo 256. *)
Theorem C81_sign_partial : forall K H dsha hash160 sha256 hmac512 rz rzs rks account, fips_constants fips256 K H -> hash_sizes dsha hash160 hmac512 ->
  (forall m, length (sha256 m) = 32%nat /\ bytes_ok (sha256 m)) -> draws rz rzs rks -> is_scalar (hk_num account) ->
  forall e v xs, electrum_holds e v xs -> amounts_hold e xs -> Forall einput_ok xs -> len (s_ins v) <= 256 -> len (s_outs v) < 2^64 ->
  let mine := has_key (point_bytes (ec_mul (number (hk_num account)) gen)) in
  Forall (fun x => mine x = true -> bip32_derive hmac512 (hk_num account) (hk_chain account) [e_first x; e_second x] <> None) xs ->
  exists e' js, el_sign_code dsha hash160 sha256 hmac512 rz rzs rks e account = Ok (e', len (filter mine xs) mod 256) /\
    el_metas e' = el_metas e /\ el_status e' = el_status e /\ tx_holds (el_tx e') (with_ins v js) /\
    electrum_all_signed dsha hash160 sha256 (rfc2104 (fips_hash fips256 K H) 64) hmac512 (hk_num account) (hk_chain account) v xs js.
Proof. exact flat_sign. Qed.
Print Assumptions C81_sign_partial.
(** From Electrum's bytes to the bytes of the signed transaction: parse, sign, serialize. *)
Theorem C81_file_partial : forall K H dsha hash160 sha256 hmac512 garbage junk rz rzs rks account, fips_constants fips256 K H -> hash_sizes dsha hash160 hmac512 ->
  (forall m, length (sha256 m) = 32%nat /\ bytes_ok (sha256 m)) -> draws rz rzs rks -> is_scalar (hk_num account) ->
  forall e v xs rest, el_status e = DONE -> tx_ok v -> no_witnesses v -> 1 <= len (s_ins v) <= 5 -> len (s_outs v) < 253 ->
  length xs = length (s_ins v) -> Forall einput_ok xs -> Forall key_on_curve xs ->
  let mine := has_key (point_bytes (ec_mul (number (hk_num account)) gen)) in
  Forall (fun x => mine x = true -> bip32_derive hmac512 (hk_num account) (hk_chain account) [e_first x; e_second x] <> None) xs ->
  exists e1 e2 js, el_parse uncompress_pubkey pt_valid_bytes garbage junk e (electrum_segwit v xs ++ rest) = Ok (e1, len (electrum_segwit v xs), rest) /\
    el_sign_code dsha hash160 sha256 hmac512 rz rzs rks e1 account = Ok (e2, len (filter mine xs)) /\
    electrum_all_signed dsha hash160 sha256 (rfc2104 (fips_hash fips256 K H) 64) hmac512 (hk_num account) (hk_chain account) v xs js /\
    gives_slices (el_to_stream e2) (wire_tx (with_ins v js)) /\ el_length e2 = len (wire_tx (with_ins v js)).
Proof. exact flat_file. Qed.
Print Assumptions C81_file_partial.
(** Only the points are compared: an extended key with another chain code, whose children are other keys, is taken for the
    account's, and the input is signed with a key that cannot spend it. *)
Theorem C81_chain_refuted : forall K H dsha hash160 sha256 hmac512 rz rzs rks account, fips_constants fips256 K H -> hash_sizes dsha hash160 hmac512 ->
  (forall m, length (sha256 m) = 32%nat /\ bytes_ok (sha256 m)) -> draws rz rzs rks -> is_scalar (hk_num account) ->
  forall e v xs, electrum_holds e v xs -> amounts_hold e xs -> Forall einput_ok xs -> len (s_ins v) < 256 -> len (s_outs v) < 2^64 ->
  Forall (fun x => x_point (e_key x) = point_bytes (ec_mul (number (hk_num account)) gen) /\ x_chain (e_key x) <> hk_chain account) xs ->
  Forall (fun x => bip32_derive hmac512 (hk_num account) (hk_chain account) [e_first x; e_second x] <> None) xs ->
  exists e' js, el_sign_code dsha hash160 sha256 hmac512 rz rzs rks e account = Ok (e', len (s_ins v)) /\ tx_holds (el_tx e') (with_ins v js) /\
    forall j i x i', nth_error (s_ins v) j = Some i -> nth_error xs j = Some x -> nth_error js j = Some i' ->
      electrum_input_signed dsha hash160 sha256 (rfc2104 (fips_hash fips256 K H) 64) hmac512 (hk_num account) (hk_chain account) v j i x i'.
Proof. exact chain_ignored. Qed.
Print Assumptions C81_chain_refuted.
(** A keyed hash with which the path 0/5 of the secret 1 gives the secret 3, without points to be computed. *)
Definition ex_hmac512 (k m : list Z) : list Z := be_bytes 32 1 ++ zeros 32.
Lemma ex_derived : forall c, bip32_derive ex_hmac512 SignExample.one c [0; 5] = Some (be_bytes 32 3, zeros 32).
Proof.
  intros c. assert (A : forall P, ckd_priv ex_hmac512 SignExample.one c P 0 = Some (be_bytes 32 2, zeros 32)) by (intros P; vm_compute; reflexivity).
  assert (B : forall P c, ckd_priv ex_hmac512 (be_bytes 32 2) c P 5 = Some (be_bytes 32 3, zeros 32)) by (intros P d; vm_compute; reflexivity).
  cbn [bip32_derive]. rewrite A. cbn [bip32_derive]. rewrite B. reflexivity.
Qed.
Lemma ex_sizes : hash_sizes doubleSha hash160 ex_hmac512.
Proof. split; [exact doubleSha_word|]. split; [exact hash160_shape|]. intros k m. split; [vm_compute; reflexivity|]. repeat (apply Forall_cons; [vm_compute; split; [discriminate|reflexivity]|]). apply Forall_nil. Qed.
(** A key with other coordinates. *)
Definition ex_foreign : s_einput :=
  {| e_key := {| x_test := false; x_type := P2WPKH; x_depth := 3; x_fp := [1; 2; 3; 4]; x_child := 0; x_chain := repeat 9 32; x_point := coords gen_x (field_prime - gen_y) |};
     e_first := 0; e_second := 5; e_amount := 9; e_how := repeat 3 7 |}.
Lemma ex_foreign_ok : einput_ok ex_foreign /\ key_on_curve ex_foreign.
Proof.
  split; [|exists gen_x, (field_prime - gen_y); split; [exact (ec_neg_point gen gen_point)|reflexivity]].
  assert (P : length (coords gen_x (field_prime - gen_y)) = 64%nat) by (vm_compute; reflexivity).
  assert (B : bytes_ok (coords gen_x (field_prime - gen_y))) by (apply Forall_forall; intros b I; assert (X : forallb (fun b => (0 <=? b) && (b <? 256)) (coords gen_x (field_prime - gen_y)) = true) by (vm_compute; reflexivity); rewrite forallb_forall in X; specialize (X b I); unfold byte_ok; lia).
  unfold einput_ok, xpub_ok, ex_foreign. cbn [e_key e_first e_second e_amount e_how x_test x_type x_depth x_fp x_child x_chain x_point].
  split; [|repeat split; lia]. split; [discriminate|]. split; [unfold byte_ok; lia|]. split; [reflexivity|]. split; [repeat constructor; unfold byte_ok; lia|].
  split; [lia|]. split; [reflexivity|]. split; [apply ex_repeat; unfold byte_ok; lia|]. split; [exact P|exact B].
Qed.
Lemma ex_mine : forall ty a, has_key (point_bytes (ec_mul (number (hk_num ex_account)) gen)) (ex_inp ty a) = true.
Proof. intros ty a. cbn [ex_account hk_num]. rewrite (proj2 one_scalar), gen_1. unfold has_key. cbn [ex_inp e_key ex_key x_point]. change (point_bytes gen) with (coords gen_x gen_y). destruct (list_eq_dec _ _ _) as [_|X]; [reflexivity|contradiction X; reflexivity]. Qed.
Lemma ex_not_mine : has_key (point_bytes (ec_mul (number (hk_num ex_account)) gen)) ex_foreign = false.
Proof. cbn [ex_account hk_num]. rewrite (proj2 one_scalar), gen_1. vm_compute. reflexivity. Qed.
Lemma ex_wit : forall h1 h2 i a sec der, si_wit (electrum_signed h1 h2 i (ex_inp P2WPKH a) sec der) = [der ++ [1]; sec].
Proof. intros. reflexivity. Qed.
Lemma ex_hash : forall h0 h1 v j i a sec, electrum_hash h0 h1 v j i (ex_inp P2WPKH a) sec = h0 (bip143_preimage h0 v j i (key_code (h1 sec)) a 1).
Proof. intros. reflexivity. Qed.
(** Two inputs, of which the second is the account's, with 70000 satoshi: one signature, made with the secret 3. *)
Example C81_example : forall garbage junk rz rzs rks, draws rz rzs rks -> exists e1 e2 i' n,
  el_parse uncompress_pubkey pt_valid_bytes garbage junk el_new (electrum_segwit (ex_etx 2) [ex_foreign; ex_inp P2WPKH 70000] ++ []) = Ok (e1, n, []) /\
  el_sign_code doubleSha hash160 sha256 ex_hmac512 rz rzs rks e1 ex_account = Ok (e2, 1) /\
  gives_slices (el_to_stream e2) (wire_tx (with_ins (ex_etx 2) [ex_txin; i'])) /\
  exists a b r s der, ec_mul 3 gen = Some (a, b) /\ der_sig r s der /\ si_wit i' = [der ++ [1]; sec_bytes true a b] /\
    signed_with (rfc2104 (fips_hash fips256 K256 H256) 64) (be_bytes 32 3)
      (doubleSha (bip143_preimage doubleSha (ex_etx 2) 1 ex_txin (key_code (hash160 (sec_bytes true a b))) 70000 1)) a b r s.
Proof.
  intros garbage junk rz rzs rks D. destruct (ex_etx_ok 2) as (T & W & _ & L). destruct (ex_inp_ok P2WPKH 70000 ltac:(discriminate) ltac:(lia)) as (O1 & C1). destruct ex_foreign_ok as (O2 & C2).
  destruct (C81_file_partial K256 H256 doubleSha hash160 sha256 ex_hmac512 garbage junk rz rzs rks ex_account constants256 ex_sizes sha256_shape D (proj1 one_scalar)
    el_new (ex_etx 2) [ex_foreign; ex_inp P2WPKH 70000] [] eq_refl T W ltac:(rewrite L; lia) eq_refl eq_refl (Forall_cons _ O2 (Forall_cons _ O1 (Forall_nil _))) (Forall_cons _ C2 (Forall_cons _ C1 (Forall_nil _))))
    as (e1 & e2 & js & P & S & (LJ & A) & G & _).
  { assert (X : forall c, bip32_derive ex_hmac512 SignExample.one c [0; 5] <> None) by (intros c; rewrite ex_derived; discriminate).
    apply Forall_cons; [intros _; exact (X _)|apply Forall_cons; [intros _; exact (X _)|apply Forall_nil]]. }
  cbn [filter] in S. rewrite ex_not_mine, ex_mine in S.
  destruct (A 0%nat ex_txin ex_foreign eq_refl eq_refl) as (i0 & N0 & A0). destruct (A 1%nat ex_txin (ex_inp P2WPKH 70000) eq_refl eq_refl) as (i1 & N1 & A1).
  rewrite ex_not_mine in A0. rewrite ex_mine in A1. subst i0.
  destruct js as [|j0 [|j1 [|]]]; try discriminate LJ. cbn [nth_error] in N0, N1. injection N0 as ->. injection N1 as ->.
  exists e1, e2, i1. eexists. split; [exact P|]. split; [exact S|]. split; [exact G|].
  destruct A1 as (d & c' & a & b & r & s & der & E1 & E2 & E3 & E4 & ->). cbn [ex_account hk_num hk_chain ex_inp e_first e_second] in E1. rewrite ex_derived in E1. injection E1 as <- <-.
  assert (N3 : number (be_bytes 32 3) = 3) by (vm_compute; reflexivity). rewrite N3 in E2.
  exists a, b, r, s, der. split; [exact E2|]. split; [exact E4|]. split; [apply ex_wit|]. rewrite ex_hash in E3. exact E3.
Qed.
(** Another chain code in the file, and the same signature. *)
Definition ex_account2 : hdpriv := mkHk SignExample.one (repeat 8 32) 3 (zeros 4) 0 Mainnet P2WPKH (zeros 4) DONE 0.
Example C81_chain_example : forall garbage junk rz rzs rks, draws rz rzs rks -> exists e1 e2 n, 
  el_parse uncompress_pubkey pt_valid_bytes garbage junk el_new (electrum_segwit (ex_etx 2) (repeat (ex_inp P2WPKH 70000) 2) ++ []) = Ok (e1, n, []) /\
  el_sign_code doubleSha hash160 sha256 ex_hmac512 rz rzs rks e1 ex_account2 = Ok (e2, 2).
Proof.
  intros garbage junk rz rzs rks D. destruct (ex_etx_ok 2) as (T & W & _ & L). destruct (ex_inp_ok P2WPKH 70000 ltac:(discriminate) ltac:(lia)) as (O1 & C1).
  destruct (C79_segwit_partial garbage junk el_new (ex_etx 2) (repeat (ex_inp P2WPKH 70000) 2) [] eq_refl T W ltac:(rewrite L; lia) eq_refl eq_refl (ex_forall _ _ _ _ O1) (ex_forall _ _ _ _ C1)) as (e1 & P & _ & EH & AH).
  destruct (C81_chain_refuted K256 H256 doubleSha hash160 sha256 ex_hmac512 rz rzs rks ex_account2 constants256 ex_sizes sha256_shape D (proj1 one_scalar)
    e1 (ex_etx 2) (repeat (ex_inp P2WPKH 70000) 2) EH AH (ex_forall _ _ _ _ O1) ltac:(rewrite L; lia) eq_refl) as (e2 & js & S & _).
  - apply ex_forall. split; [|discriminate]. cbn [ex_account2 hk_num]. rewrite (proj2 one_scalar), gen_1. reflexivity.
  - apply ex_forall. cbn [ex_account2 hk_num hk_chain ex_inp e_first e_second]. rewrite ex_derived. discriminate.
  - exists e1, e2. eexists. split; [exact P|]. rewrite L in S. exact S.
Qed.
