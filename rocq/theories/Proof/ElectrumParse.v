(** Parsing Electrum's unsigned transactions. *)
From Coq Require Import Lia.
From Verif Require Import Base.Bytes Base.BytesFacts Spec.Codecs Spec.Wire Spec.Objects Spec.Keys Spec.HD Spec.Sighash Spec.Electrum
  Model.Conversion Model.Stream Model.Script Model.Tx Model.Sign Model.HD Model.Networks Model.Electrum
  Proof.IntVarint Proof.StreamFacts Proof.ScriptFacts Proof.WitnessFacts Proof.TxIo Proof.IoProps Proof.TxSer Proof.TxParse Proof.HDPub.
Open Scope Z_scope.

(** ** The transaction, up to the witnesses that are none *)
Definition bad_wit (b : Z) : witness := mkWitness [] 0 0 0 0 0 0 b FAILED 1.
Definition pin_bad (p : s_txin * Z) : txin := parsed_in (fst p) (bad_wit (snd p)).
Lemma wit_bad : forall i b rest, 253 <= b -> txin_parse_wit (pin0 i) (b :: rest) = Ok (pin_bad (i, b), 1, rest).
Proof.
  intros i b rest B. unfold txin_parse_wit, pin0. cbn [parsed_in ti_wit]. unfold witness_parse, witness_new. cbn [wi_status].
  unfold witness_parse_body, witness_clear. cbn [wi_arr wi_len wi_num wi_cur wi_elen wi_eparsed wi_curLen wi_lenLen wi_status wi_parsed].
  change (0 =? 0) with true. cbv iota. destruct (Z.ltb_spec b 253); [lia|]. cbn [bind]. reflexivity.
Qed.
Lemma wits_bad : forall l bs rest, length bs = length l -> Forall (fun b => 253 <= b) bs ->
  parse_all txin_parse_wit (map pin0 l) (bs ++ rest) = Ok (map pin_bad (combine l bs), len l, rest).
Proof.
  induction l as [|i l IH]; intros [|b bs] rest L F; try discriminate L; [reflexivity|].
  apply Forall_cons_iff in F as (F1 & F2). cbn [map parse_all app combine]. rewrite wit_bad by auto. cbn [bind].
  rewrite IH by (auto; injection L; auto). cbn [bind]. rewrite len_cons. reflexivity.
Qed.
(** The failed transaction: [bs] are the bytes taken for the first bytes of witnesses. *)
Definition bad_tx (v : s_tx) (bs : list Z) : tx :=
  mkTx (s_version v) (map pin_bad (combine (s_ins v) bs)) (map parsed_out (s_outs v)) 0 1 FAILED (len (before_witness v) + len (s_ins v)).
Lemma before_len : forall v, 1 <= len (s_ins v) < 253 -> len (s_outs v) < 253 ->
  len (before_witness v) = 8 + len (flat_map wire_in (s_ins v)) + len (flat_map wire_out (s_outs v)).
Proof.
  intros v NI NO. pose proof (len_nonneg _ (s_outs v)). unfold before_witness, wire_list. rewrite !len_app, !len_le_bytes, !compact_one by lia. rewrite !len_cons, !len_nil. lia.
Qed.
Lemma tx_parse_bad : forall t v bs rest, t_status t = DONE -> tx_ok v -> 1 <= len (s_ins v) < 253 -> len (s_outs v) < 253 ->
  length bs = length (s_ins v) -> Forall (fun b => 253 <= b) bs ->
  tx_parse t (before_witness v ++ bs ++ rest) = Ok (bad_tx v bs, len (before_witness v) + len (s_ins v), rest).
Proof.
  intros t v bs rest D (V & L & FI & FO) NI NO LB FB. pose proof (len_nonneg _ (s_outs v)) as NO0.
  pose proof (before_len v NI NO) as BL. unfold bad_tx. rewrite BL.
  unfold tx_parse. rewrite D. unfold tx_parse_body. cbn [t_parsed t_version t_ins t_outs t_lock t_segflag].
  assert (RI : Z.to_nat (len (s_ins v)) = length (s_ins v)) by (unfold len; lia).
  assert (RO : Z.to_nat (len (s_outs v)) = length (s_outs v)) by (unfold len; lia).
  unfold before_witness, wire_list. rewrite <- !app_assoc. rewrite !compact_one by lia. cbn [app].
  change (read_loop_o 4 0 (acc32 0) 0) with (read_loop_o (0 + 4) 0 (acc32 0) 0).
  rewrite (acc32_le4 0) by auto. change (0 + 4) with 4. cbn [bind].
  unfold tx_parse_count. change (4 =? 4) with true. change (0 =? 0) with true. cbv iota. cbn [bind].
  change (4 + 1) with 5. change (0 <? 1) with true. change (5 =? 5) with true. cbn [andb]. cbv iota.
  change (1 =? 1) with true. cbn [negb]. cbv iota. change (5 + 1) with 6. change (6 =? 6) with true. cbv iota.
  rewrite RI, parse_ins by auto. cbn [bind].
  rewrite parse_more_done by (apply Forall_map'; reflexivity). cbn [bind].
  rewrite (sum_ins (fun _ => witness_new) (s_ins v) FI : zsum (map txin_length (map pin0 (s_ins v))) = _).
  set (A := len (flat_map wire_in (s_ins v))). rewrite Z.add_0_r.
  replace (6 + 1 + A =? 5 + 2 * 1 + A) with true by (symmetry; apply Z.eqb_eq; lia).
  rewrite RO, parse_outs by auto. cbn [bind].
  rewrite parse_more_done by (apply Forall_map'; reflexivity). cbn [bind].
  rewrite sum_outs by auto. set (O := len (flat_map wire_out (s_outs v))). rewrite Z.add_0_r.
  replace (6 + 1 + A + 1 + O =? 5 + 2 * 1 + A + 1 + O) with true by (symmetry; apply Z.eqb_eq; lia).
  change (0 <? 1) with true. cbn [andb]. rewrite wits_bad by auto. cbn [bind]. cbv iota.
  destruct (s_ins v) as [|i l]; [cbn in NI; lia|]. destruct bs as [|b bs]; [discriminate LB|].
  cbn [combine map]. cbn [parse_more]. unfold txin_wit_status at 1. unfold pin_bad at 1. cbn [fst snd parsed_in ti_wit bad_wit wi_status].
  assert (X : forall (T U : Type) (q : list T) (u : U), (match q with [] => u | _ :: _ => u end) = u) by (intros ? ? []; reflexivity).
  rewrite X. cbn [bind]. unfold txin_wit_status at 1. unfold pin_bad at 1. cbn [fst snd parsed_in ti_wit bad_wit wi_status pstatus_eqb bind].
  apply done_eq; lia.
Qed.

(** ** The transaction afterwards *)
Definition no_wit (b : Z) : witness := mkWitness [] 0 0 0 0 0 0 b FAILED 1.
Definition unlocked (v : s_tx) : s_tx := {| s_version := s_version v; s_ins := s_ins v; s_outs := s_outs v; s_lock := 0 |}.
Lemma drop_bad : forall v bs, length bs = length (s_ins v) ->
  drop_witnesses (bad_tx v bs) = mkTx (s_version v) (map (fun p => parsed_in (fst p) (no_wit (snd p))) (combine (s_ins v) bs)) (map parsed_out (s_outs v)) 0 1 DONE
    (len (before_witness v) + len (s_ins v)).
Proof.
  intros v bs L. unfold drop_witnesses, bad_tx. cbn [t_version t_ins t_outs t_segflag t_parsed]. rewrite map_map. f_equal.
Qed.
Definition clean_tx (v : s_tx) (bs : list Z) (lock : Z) : tx :=
  mkTx (s_version v) (map (fun p => parsed_in (fst p) (no_wit (snd p))) (combine (s_ins v) bs)) (map parsed_out (s_outs v)) lock 1 DONE (len (before_witness v) + len (s_ins v)).
Lemma combine_fst : forall {A B} (l : list A) (m : list B), length m = length l -> map fst (combine l m) = l.
Proof. induction l as [|a l IH]; intros [|b m] L; try discriminate L; [reflexivity|]. cbn [combine map fst]. rewrite IH; auto. Qed.
Lemma clean_holds : forall v bs lock, tx_ok v -> no_witnesses v -> length bs = length (s_ins v) -> 0 <= lock < 2^32 -> tx_holds (clean_tx v bs lock) {| s_version := s_version v; s_ins := s_ins v; s_outs := s_outs v; s_lock := lock |}.
Proof.
  intros v bs lock (V & L & FI & FO) NW LB R. unfold no_witnesses in NW. unfold tx_holds, clean_tx. cbn [t_version t_lock t_ins t_outs s_version s_lock s_ins s_outs].
  split; [reflexivity|]. split; [exact V|]. split; [reflexivity|]. split; [exact R|]. split.
  - revert bs LB. induction (s_ins v) as [|i l IH]; intros [|b bs] LB; try discriminate LB; cbn [combine map fst snd]; [constructor|].
    apply Forall_cons_iff in FI as (I1 & I2). apply Forall_cons_iff in NW as (N1 & N2). constructor; [|apply IH; auto].
    destruct I1 as (P1 & P2 & P3 & P4 & P5 & P6 & P7). unfold txin_holds. cbn [parsed_in ti_hash ti_index ti_script ti_seq ti_wit].
    split; [reflexivity|]. split; [exact P1|]. split; [exact P2|]. split; [reflexivity|]. split; [exact P3|]. split; [apply parsed_script_holds; auto|].
    split; [reflexivity|]. split; [exact P4|]. rewrite N1. unfold witness_holds, no_wit. cbn. split; [reflexivity|]. split; [reflexivity|]. split; [reflexivity|]. split; [constructor|reflexivity].
  - apply F2_map. eapply Forall_impl; [|exact FO]. intros o (O1 & O2 & O3). unfold txout_holds. cbn [parsed_out to_amount to_script].
    split; [reflexivity|]. split; [exact O1|apply parsed_script_holds; auto].
Qed.
Lemma clean_lengths : forall l bs, Forall in_ok l -> length bs = length l ->
  Forall2 (fun e x => txin_length e + 0 = len (wire_in x)) (map (fun p : s_txin * Z => parsed_in (fst p) (no_wit (snd p))) (combine l bs)) l.
Proof.
  induction l as [|i l IH]; intros [|b bs] F L; try discriminate L; cbn [combine map fst snd]; [constructor|].
  apply Forall_cons_iff in F as (I1 & I2). constructor; [rewrite pin_length; auto; lia|]. apply IH; auto.
Qed.
Lemma clean_length : forall v bs lock, tx_ok v -> length bs = length (s_ins v) -> 1 <= len (s_ins v) < 253 -> len (s_outs v) < 253 ->
  tx_length (clean_tx v bs lock) = len (before_witness v) + 2.
Proof.
  intros v bs lock (V & L & FI & FO) LB NI NO. pose proof (len_nonneg _ (s_outs v)). rewrite (before_len v NI NO). unfold tx_length.
  assert (SG : tx_isSegwit (clean_tx v bs lock) = false).
  { unfold tx_isSegwit, clean_tx. cbn [t_ins]. apply not_true_is_false. intros E. apply existsb_exists in E as (x & I & E). apply in_map_iff in I as (p & <- & _). discriminate E. }
  rewrite SG. cbn [b2z]. unfold clean_tx. cbn [t_ins t_outs].
  assert (LI : len (map (fun p : s_txin * Z => parsed_in (fst p) (no_wit (snd p))) (combine (s_ins v) bs)) = len (s_ins v)) by (unfold len; rewrite map_length, combine_length; lia).
  assert (LO : len (map parsed_out (s_outs v)) = len (s_outs v)) by (unfold len; rewrite map_length; auto).
  rewrite LI, LO, !lenVarInt_spec by lia. rewrite !compact_one by lia.
  rewrite sum_outs by auto.
  assert (SI : zsum (map (fun i => txin_length i + 0) (map (fun p : s_txin * Z => parsed_in (fst p) (no_wit (snd p))) (combine (s_ins v) bs))) = len (flat_map wire_in (s_ins v))).
  { apply flat_len. apply clean_lengths; auto. }
  rewrite SI. rewrite !len_cons, !len_nil. lia.
Qed.

(** ** The loops *)
Lemma read_app : forall {S} (f : S -> Z -> Z -> S) a base pos s rest, pos + len a = base ->
  exists s', forall r, r = rest -> read_loop base pos f s (a ++ r) = (s', base, r).
Proof.
  intros S f a. induction a as [|c a IH]; intros base pos s rest E.
  - exists s. intros r ->. rewrite len_nil in E. cbn [app]. destruct rest as [|b r]; cbn [read_loop]; [f_equal; f_equal; lia|].
    destruct (Z.ltb_spec pos base); [lia|]. f_equal; f_equal; lia.
  - rewrite len_cons in E. destruct (IH base (pos + 1) (f s pos c) rest ltac:(lia)) as (s' & H). exists s'. intros r ->. cbn [app read_loop].
    pose proof (len_nonneg _ a). destruct (Z.ltb_spec pos base); [|lia]. apply H; auto.
Qed.
Lemma skip_app : forall a limit pos rest, pos + len a = limit -> skip_loop limit pos (a ++ rest) = (limit, rest).
Proof.
  intros a limit pos rest E. unfold skip_loop. destruct (read_app (fun (u : unit) _ _ => u) a limit pos tt rest E) as (s' & H). rewrite H by auto. reflexivity.
Qed.
Lemma read_past : forall {S} (f : S -> Z -> Z -> S) limit pos s st, limit <= pos -> read_loop limit pos f s st = (s, pos, st).
Proof. intros S f limit pos s [|c st] L; cbn [read_loop]; [reflexivity|]. destruct (Z.ltb_spec pos limit); [lia|reflexivity]. Qed.
Lemma skip_past : forall limit pos st, limit <= pos -> skip_loop limit pos st = (pos, st).
Proof. intros limit pos st L. unfold skip_loop. rewrite read_past by auto. reflexivity. Qed.

Lemma acc64_loop : forall m x base j acc rest, 0 <= j -> 0 <= x -> 0 <= acc ->
  acc + (x mod 256 ^ Z.of_nat m) * 2^(8 * j) < 2^64 ->
  read_loop (base + j + Z.of_nat m) (base + j) (acc64 base) acc (le_bytes m x ++ rest) = (acc + (x mod 256 ^ Z.of_nat m) * 2^(8 * j), base + j + Z.of_nat m, rest).
Proof.
  induction m as [|m IH]; intros x base j acc rest J X A B.
  - cbn [le_bytes app]. rewrite read_past by lia. change (256 ^ Z.of_nat 0) with 1. rewrite Z.mod_1_r. f_equal; f_equal; lia.
  - cbn [le_bytes app read_loop]. rewrite Nat2Z.inj_succ in *. rewrite Z.pow_succ_r in * by lia.
    assert (P : 0 < 256 ^ Z.of_nat m) by (apply Z.pow_pos_nonneg; lia).
    assert (Q : 0 < 2 ^ (8 * j)) by (apply Z.pow_pos_nonneg; lia).
    assert (M : x mod (256 * 256 ^ Z.of_nat m) = x mod 256 + 256 * (x / 256 mod 256 ^ Z.of_nat m)) by (apply Z.rem_mul_r; lia).
    assert (D : 0 <= x / 256 mod 256 ^ Z.of_nat m) by (apply Z.mod_pos_bound; lia).
    assert (R : 0 <= x mod 256 < 256) by (apply Z.mod_pos_bound; lia).
    rewrite M in *. destruct (Z.ltb_spec (base + j) (base + j + Z.succ (Z.of_nat m))); [|lia].
    unfold acc64 at 2. replace (base + j - base) with j by lia.
    assert (E : 2 ^ (8 * (j + 1)) = 256 * 2 ^ (8 * j)) by (replace (8 * (j + 1)) with (8 * j + 8) by lia; rewrite Z.pow_add_r by lia; change (2^8) with 256; ring).
    assert (U : u64 (acc + x mod 256 * 2 ^ (8 * j)) = acc + x mod 256 * 2 ^ (8 * j)).
    { unfold u64. apply Z.mod_small. split; [nia|]. nia. }
    rewrite U. replace (base + j + Z.succ (Z.of_nat m)) with (base + (j + 1) + Z.of_nat m) by lia. replace (base + j + 1) with (base + (j + 1)) by lia.
    rewrite IH; [|lia|apply Z.div_pos; lia|nia|rewrite E; nia]. f_equal; f_equal. rewrite E. ring.
Qed.
Lemma skipn_le : forall k m x, (k <= m)%nat -> skipn k (le_bytes m x) = le_bytes (m - k) (x / 256 ^ Z.of_nat k).
Proof.
  induction k as [|k IH]; intros m x L.
  - cbn [skipn]. rewrite Nat.sub_0_r. change (256 ^ Z.of_nat 0) with 1. rewrite Z.div_1_r. reflexivity.
  - destruct m as [|m]; [lia|]. cbn [le_bytes skipn]. rewrite IH by lia. rewrite Nat2Z.inj_succ, Z.pow_succ_r by lia. rewrite Z.div_div; [reflexivity|lia|apply Z.pow_pos_nonneg; lia].
Qed.
(** What is left of an amount when its first [k] bytes are not read. *)
Definition without (k : nat) (a : Z) : Z := a - a mod 256 ^ Z.of_nat k.
Lemma without_0 : forall a, without 0 a = a.
Proof. intros a. unfold without. change (256 ^ Z.of_nat 0) with 1. rewrite Z.mod_1_r. lia. Qed.
Lemma amount_loop : forall a k base rest, 0 <= a < 2^64 -> (k <= 8)%nat ->
  read_loop (base + 8) (base + Z.of_nat k) (acc64 base) 0 (skipn k (le_bytes 8 a) ++ rest) = (without k a, base + 8, rest).
Proof.
  intros a k base rest A K. rewrite skipn_le by auto.
  assert (P : 0 < 256 ^ Z.of_nat k) by (apply Z.pow_pos_nonneg; lia).
  assert (Q : 256 ^ Z.of_nat (8 - k) * 256 ^ Z.of_nat k = 2^64) by (rewrite <- Z.pow_add_r by lia; replace (Z.of_nat (8 - k) + Z.of_nat k) with 8 by lia; reflexivity).
  assert (B : 0 <= a / 256 ^ Z.of_nat k < 256 ^ Z.of_nat (8 - k)).
  { split; [apply Z.div_pos; lia|]. apply Z.div_lt_upper_bound; [lia|]. rewrite Z.mul_comm, Q. lia. }
  assert (E : 2 ^ (8 * Z.of_nat k) = 256 ^ Z.of_nat k) by (rewrite Z.pow_mul_r by lia; reflexivity).
  assert (W : a / 256 ^ Z.of_nat k * 2 ^ (8 * Z.of_nat k) = without k a).
  { rewrite E. unfold without. pose proof (Z.div_mod a (256 ^ Z.of_nat k) ltac:(lia)). lia. }
  assert (W2 : 0 <= a mod 256 ^ Z.of_nat k) by (apply Z.mod_pos_bound; lia).
  replace (base + 8) with (base + Z.of_nat k + Z.of_nat (8 - k)) by lia.
  rewrite acc64_loop; rewrite ?(Z.mod_small _ _ B), ?W; try lia; [reflexivity|unfold without in *; lia].
Qed.
Lemma der_loop : forall a b base rest, 0 <= a < 2^16 -> 0 <= b < 2^16 ->
  read_loop (base + 4) base (acc_der base) (0, 0) ((le_bytes 2 a ++ le_bytes 2 b) ++ rest) = ((a, b), base + 4, rest).
Proof.
  intros a b base rest A B. cbn [le_bytes app]. cbn [read_loop].
  destruct (Z.ltb_spec base (base + 4)); [|lia]. destruct (Z.ltb_spec (base + 1) (base + 4)); [|lia].
  destruct (Z.ltb_spec (base + 1 + 1) (base + 4)); [|lia]. destruct (Z.ltb_spec (base + 1 + 1 + 1) (base + 4)); [|lia].
  unfold acc_der. replace (base - base) with 0 by lia. replace (base + 1 - base) with 1 by lia. replace (base + 1 + 1 - base) with 2 by lia. replace (base + 1 + 1 + 1 - base) with 3 by lia.
  change (0 / 2 =? 0) with true. change (1 / 2 =? 0) with true. change (2 / 2 =? 0) with false. change (3 / 2 =? 0) with false. cbv iota. cbn [fst snd].
  change (2 ^ (8 * (0 mod 2))) with 1. change (2 ^ (8 * (1 mod 2))) with 256. change (2 ^ (8 * (2 mod 2))) with 1. change (2 ^ (8 * (3 mod 2))) with 256.
  rewrite read_past by lia.
  assert (U : forall x, 0 <= x < 2^16 -> u16 (u16 (0 + x mod 256 * 1) + (x / 256) mod 256 * 256) = x).
  { intros x X. unfold u16. change (2^16) with 65536 in *. dlia. }
  rewrite !U by auto. f_equal; f_equal; lia.
Qed.

Lemma map_same : forall {A B C : Type} (c : C) (l : list A) (m : list B), length l = length m -> map (fun _ => c) l = map (fun _ => c) m.
Proof. intros A B C c l. induction l as [|a l IH]; intros [|b m] Q; try discriminate Q; [reflexivity|]. cbn [map]. rewrite (IH m); auto. Qed.

Section Parsed.
Variable uncompress : list Z -> list Z -> outcome (list Z).
Variable valid : list Z -> bool.
Variable garbage : list Z.
Variable junk : nat -> Z * Z * Z.
Notation parse := (el_parse uncompress valid garbage junk).
Notation hparse := (hp_parse uncompress valid garbage).
Variable keys : s_einput -> list Z.
(** The bytes of the key are read as the object [k], whatever follows. *)
Definition read_key (x : s_einput) (k : hdpub) : Prop := len (keys x) = 78 /\ forall rest, hparse hp_new (keys x ++ rest) = Ok (k, 78, rest).
Definition fine (x : s_einput) : Prop := 0 <= e_first x < 2^16 /\ 0 <= e_second x < 2^16 /\ 0 <= e_amount x < 2^64 /\ length (e_how x) = 7%nat.

Lemma hd_once : forall x k limit pos rest, read_key x k -> limit = pos + 78 ->
  hd_loop uncompress valid garbage (length (keys x ++ rest)) limit pos hp_new (keys x ++ rest) = Ok (k, limit, rest).
Proof.
  intros x k limit pos rest (L & R) E. pose proof (R rest) as H. destruct (keys x ++ rest) as [|c st] eqn:Q.
  - destruct (keys x); [cbn in L; lia|discriminate Q].
  - cbn [length hd_loop]. destruct (Z.ltb_spec pos limit); [|lia]. rewrite H. cbn [bind]. change (78 =? 0) with false. cbv iota. rewrite <- E.
    destruct rest as [|b r]; destruct (length st); cbn [hd_loop]; try reflexivity. destruct (Z.ltb_spec limit limit); [lia|reflexivity].
Qed.
(** The data of an input from byte [n] of the thirteen first bytes on. *)
Definition head13 (x : s_einput) : list Z := [254; 255; 255; 255; 255] ++ le_bytes 8 (e_amount x).
Lemma head_len : forall x, length (head13 x) = 13%nat.
Proof. reflexivity. Qed.
Lemma meta_ok : forall x k n start rest, fine x -> read_key x k -> (n <= 13)%nat ->
  segwit_meta uncompress valid garbage start (start + Z.of_nat n) (mkEm hp_new 0 0 0) (skipn n (head13 x) ++ e_how x ++ keys x ++ e_path x ++ rest) =
  Ok (mkEm k (e_first x) (e_second x) (without (n - 5) (e_amount x)), start + 102, rest).
Proof.
  intros x k n start rest (F1 & F2 & F3 & F4) R L. unfold segwit_meta. cbn [em_hd em_d0 em_d1 em_amount].
  assert (X : exists p, skip_loop (start + 5) (start + Z.of_nat n) (skipn n (head13 x) ++ e_how x ++ keys x ++ e_path x ++ rest) =
     (start + 5 + Z.of_nat p, skipn p (le_bytes 8 (e_amount x)) ++ e_how x ++ keys x ++ e_path x ++ rest) /\ p = (n - 5)%nat).
  { exists (n - 5)%nat. split; [|reflexivity]. destruct (le_lt_dec n 5).
    - replace (n - 5)%nat with 0%nat by lia. unfold head13. rewrite skipn_app. cbn [length]. replace (n - 5)%nat with 0%nat by lia.
      rewrite <- app_assoc. cbn [skipn]. rewrite skip_app; [f_equal; lia|]. unfold len. rewrite skipn_length. cbn [length]. lia.
    - rewrite skip_past by lia. unfold head13. rewrite skipn_app. rewrite (skipn_all2 [254; 255; 255; 255; 255]) by (cbn [length]; lia). cbn [length app]. f_equal. lia. }
  destruct X as (p & -> & ->). replace (start + 13) with (start + 5 + 8) by lia. rewrite amount_loop by (auto; lia).
  rewrite (skip_app (e_how x)) by (unfold len; lia). rewrite (hd_once x k) by (auto; lia). cbn [bind].
  replace (start + 102) with (start + 98 + 4) by lia. unfold e_path. rewrite der_loop by auto. reflexivity.
Qed.
Lemma len_magic : len electrum_magic = 6.
Proof. reflexivity. Qed.

Definition told (x : s_einput) (k : hdpub) : emeta := mkEm k (e_first x) (e_second x) (e_amount x).
Lemma metas_ok : forall xs ks start rest, Forall fine xs -> Forall2 read_key xs ks ->
  segwit_metas uncompress valid garbage start start (map (fun _ => mkEm hp_new 0 0 0) xs) (flat_map (fun x => witness_with (keys x) x) xs ++ rest) =
  Ok (map (fun p => told (fst p) (snd p)) (combine xs ks), start + 102 * len xs, rest).
Proof.
  intros xs ks start rest F R. revert start. induction R as [|x k xs ks R1 R IH]; intros start; cbn [map segwit_metas flat_map combine].
  - rewrite len_nil. replace (start + 102 * 0) with start by lia. reflexivity.
  - apply Forall_cons_iff in F as (F1 & F2). unfold witness_with at 1. rewrite <- !app_assoc.
    pose proof (meta_ok x k 0 start (flat_map (fun x => witness_with (keys x) x) xs ++ rest) F1 R1 ltac:(lia)) as M. unfold head13 in M. cbn [skipn] in M. rewrite <- !app_assoc in M.
    change (Z.of_nat 0) with 0 in M. rewrite Z.add_0_r in M. rewrite M. cbn [bind]. rewrite IH by auto. cbn [bind]. rewrite len_cons. cbn [Nat.sub]. rewrite without_0.
    cbn [fst snd]. unfold told at 2. do 3 f_equal. lia.
Qed.
Lemma prefix_ok : forall st, prefix_loop 0 (electrum_magic ++ st) = (6, st, false).
Proof. intros st. destruct st; reflexivity. Qed.
Lemma with_len : forall x, fine x -> len (keys x) = 78 -> len (witness_with (keys x) x) = 102.
Proof. intros x (_ & _ & _ & F) K. unfold witness_with, e_path. rewrite !len_app, K, !len_le_bytes. unfold len. rewrite F. reflexivity. Qed.
Lemma withs_len : forall xs ks, Forall fine xs -> Forall2 read_key xs ks -> len (flat_map (fun x => witness_with (keys x) x) xs) = 102 * len xs.
Proof.
  intros xs ks F R. induction R as [|x k xs ks (R1 & _) R IH]; [reflexivity|]. apply Forall_cons_iff in F as (F1 & F2).
  cbn [flat_map]. rewrite len_app, with_len, IH, len_cons by auto. lia.
Qed.
Lemma segwit_len : forall v xs ks, Forall fine xs -> Forall2 read_key xs ks -> len (segwit_with keys v xs) = 6 + len (before_witness v) + 102 * len xs + 4.
Proof. intros v xs ks F R. unfold segwit_with. rewrite !len_app, (withs_len xs ks) by auto. rewrite len_magic, len_le_bytes. lia. Qed.

Lemma body_ok : forall v bs x xs k ks n pos rest, tx_ok v -> 1 <= len (s_ins v) < 253 -> len (s_outs v) < 253 -> length bs = length (s_ins v) ->
  Forall fine (x :: xs) -> read_key x k -> Forall2 read_key xs ks -> (n <= 13)%nat -> pos = 6 + len (before_witness v) + Z.of_nat n ->
  segwit_body uncompress valid garbage (clean_tx v bs 0) (map (fun _ => mkEm hp_new 0 0 0) (x :: xs)) 0 pos
    (skipn n (head13 x) ++ e_how x ++ keys x ++ e_path x ++ flat_map (fun x => witness_with (keys x) x) xs ++ le_bytes 4 (s_lock v) ++ rest) =
  Ok (mkEl (clean_tx v bs (s_lock v)) true (Some (mkEm k (e_first x) (e_second x) (without (n - 5) (e_amount x)) :: map (fun p => told (fst p) (snd p)) (combine xs ks))) DONE
        (len (segwit_with keys v (x :: xs))), len (segwit_with keys v (x :: xs)), rest).
Proof.
  intros v bs x xs k ks n pos rest TX NI NO LB F R RS N13 E. unfold segwit_body. rewrite clean_length by auto.
  assert (SL : len (segwit_with keys v (x :: xs)) = 6 + len (before_witness v) + 102 * len (x :: xs) + 4) by (apply (segwit_len v (x :: xs) (k :: ks)); auto).
  rewrite SL. replace (6 + (len (before_witness v) + 2) + 2 - 4) with (6 + len (before_witness v)) by lia.
  apply Forall_cons_iff in F as (F1 & F2). cbn [map segwit_metas]. rewrite E, (meta_ok x k) by auto. cbn [bind]. rewrite (metas_ok xs ks) by auto. cbn [bind].
  assert (LM : len (mkEm hp_new 0 0 0 :: map (fun _ : s_einput => mkEm hp_new 0 0 0) xs) = len (x :: xs)) by (unfold len; cbn [length]; rewrite map_length; reflexivity).
  rewrite LM. rewrite len_cons.
  replace (6 + len (before_witness v) + 102 + 102 * len xs) with (6 + len (before_witness v) + 102 * (1 + len xs)) by lia.
  cbn [clean_tx t_lock]. destruct TX as (V & L & FI & FO). rewrite acc32_le4 by auto. cbn [bind]. rewrite Z.eqb_refl. rewrite Z.sub_0_r. reflexivity.
Qed.
(** Everything up to the data of the inputs; [bs] are the bytes taken for the first bytes of witnesses. *)
Lemma el_front : forall e v bs st, el_status e = DONE -> tx_ok v -> 1 <= len (s_ins v) < 253 -> len (s_outs v) < 253 ->
  length bs = length (s_ins v) -> Forall (fun b => 253 <= b) bs ->
  parse e (electrum_magic ++ before_witness v ++ bs ++ st) =
  segwit_body uncompress valid garbage (clean_tx v bs 0) (map (fun _ => mkEm hp_new 0 0 0) (s_ins v)) 0 (6 + (len (before_witness v) + len (s_ins v))) st.
Proof.
  intros e v bs st D TX NI NO LB BIG. unfold el_parse. rewrite D. unfold el_body. cbn [el_parsed el_segwit el_tx el_metas].
  rewrite prefix_ok. cbn [negb andb].
  assert (NE : forall r, (match before_witness v ++ r with [] => false | _ :: _ => true end) = true).
  { intros r. pose proof (before_len v NI NO) as BL. pose proof (len_nonneg _ (flat_map wire_in (s_ins v))). pose proof (len_nonneg _ (flat_map wire_out (s_outs v))).
    destruct (before_witness v); [rewrite len_nil in BL; lia|reflexivity]. }
  rewrite NE. change (negb (pstatus_eqb (t_status tx_new) FAILED)) with true. cbv iota. cbn [andb].
  rewrite tx_parse_bad by auto. cbn [bind]. change (t_status (bad_tx v bs)) with FAILED. cbv iota.
  unfold el_after. change (t_status (bad_tx v bs)) with FAILED. cbn [pstatus_eqb].
  assert (AW : at_witness (bad_tx v bs) = true).
  { unfold at_witness, bad_tx. cbn [t_ins]. destruct (s_ins v) as [|i l]; [cbn in NI; lia|]. destruct bs as [|b bs]; [discriminate LB|]. reflexivity. }
  rewrite AW, drop_bad by auto. unfold clean_tx.
  assert (MM : map (fun _ => mkEm hp_new 0 0 0) (t_ins (bad_tx v bs)) = map (fun _ => mkEm hp_new 0 0 0) (s_ins v)).
  { unfold bad_tx. cbn [t_ins]. rewrite map_map. apply map_same. rewrite combine_length. lia. }
  rewrite MM. reflexivity.
Qed.
Lemma segwit_parse : forall e v x xs k ks rest, el_status e = DONE -> tx_ok v -> 1 <= len (s_ins v) < 253 -> len (s_outs v) < 253 ->
  length (x :: xs) = length (s_ins v) -> (length (s_ins v) <= 13)%nat -> Forall fine (x :: xs) -> read_key x k -> Forall2 read_key xs ks ->
  Forall (fun b => 253 <= b) (firstn (length (s_ins v)) (head13 x)) ->
  parse e (segwit_with keys v (x :: xs) ++ rest) =
  Ok (mkEl (clean_tx v (firstn (length (s_ins v)) (head13 x)) (s_lock v)) true
        (Some (mkEm k (e_first x) (e_second x) (without (length (s_ins v) - 5) (e_amount x)) :: map (fun p => told (fst p) (snd p)) (combine xs ks))) DONE
        (len (segwit_with keys v (x :: xs))), len (segwit_with keys v (x :: xs)), rest).
Proof.
  intros e v x xs k ks rest D TX NI NO LX N13 F R RS BIG.
  assert (LB : length (firstn (length (s_ins v)) (head13 x)) = length (s_ins v)) by (rewrite firstn_length, head_len; lia).
  rewrite <- (body_ok v (firstn (length (s_ins v)) (head13 x)) x xs k ks (length (s_ins v)) (6 + len (before_witness v) + len (s_ins v)) rest) by auto.
  assert (W : segwit_with keys v (x :: xs) ++ rest = electrum_magic ++ before_witness v ++ firstn (length (s_ins v)) (head13 x) ++
    skipn (length (s_ins v)) (head13 x) ++ e_how x ++ keys x ++ e_path x ++ flat_map (fun x => witness_with (keys x) x) xs ++ le_bytes 4 (s_lock v) ++ rest).
  { unfold segwit_with. cbn [flat_map]. unfold witness_with at 1. rewrite (app_assoc (firstn _ _)), firstn_skipn. unfold head13. rewrite <- !app_assoc. reflexivity. }
  rewrite W, el_front by auto. f_equal; [apply map_same; auto|lia].
Qed.
End Parsed.
