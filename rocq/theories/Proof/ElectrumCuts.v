(** Electrum transactions read in any pieces: cuts in the magic bytes and in the transaction. *)
From Coq Require Import Lia.
From Verif Require Import Base.Bytes Base.BytesFacts Spec.Codecs Spec.Wire Spec.Pieces Spec.Objects Spec.Keys Spec.HD Spec.Sighash Spec.Electrum
  Model.Conversion Model.Stream Model.Script Model.Tx Model.Sign Model.Point Model.HD Model.Electrum
  Proof.IntVarint Proof.StreamFacts Proof.ScriptFacts Proof.WitnessFacts Proof.TxIo Proof.IoProps Proof.TxSer Proof.TxParse Proof.TxPhases Proof.TxChunks Proof.TxSegwit Proof.HDPub Proof.ElectrumParse Proof.ElectrumProps Proof.ElectrumChunks.
Open Scope Z_scope.

(** ** The transaction when fewer bytes than inputs are left for the witnesses *)
Definition lost (o : option Z) : witness := match o with Some b => bad_wit b | None => mkWitness [] 0 0 0 0 0 0 0 FAILED 0 end.
Fixpoint losts (l : list s_txin) (bs : list Z) : list txin :=
  match l, bs with
  | [], _ => []
  | i :: l', [] => parsed_in i (lost None) :: losts l' []
  | i :: l', b :: bs' => parsed_in i (lost (Some b)) :: losts l' bs'
  end.
Lemma wits_lost : forall l bs st, (length bs <= length l)%nat -> Forall (fun b => 253 <= b) bs -> length bs = length l \/ st = [] ->
  parse_all txin_parse_wit (map pin0 l) (bs ++ st) = Ok (losts l bs, len bs, st).
Proof.
  induction l as [|i l IH]; intros [|b bs] st L F C; cbn [length] in L; try lia; cbn [map parse_all app losts].
  - reflexivity.
  - destruct C as [C| ->]; [discriminate C|]. assert (X : txin_parse_wit (pin0 i) [] = Ok (parsed_in i (lost None), 0, [])) by reflexivity.
    rewrite X. cbn [bind]. pose proof (IH [] [] ltac:(cbn; lia) F (or_intror eq_refl)) as Y. cbn [app] in Y. rewrite Y. reflexivity.
  - apply Forall_cons_iff in F as (F1 & F2). rewrite wit_bad by auto. cbn [bind]. rewrite IH; [|lia|auto|destruct C as [C|C]; [left; cbn [length] in C; lia|auto]]. cbn [bind]. rewrite len_cons. reflexivity.
Qed.
Definition shaped (ins : list txin) (l : list s_txin) : Prop := Forall2 (fun e i => exists o, e = parsed_in i (lost o)) ins l.
Lemma losts_shaped : forall l bs, shaped (losts l bs) l.
Proof. induction l as [|i l IH]; intros [|b bs]; cbn [losts]; constructor; eauto; apply IH. Qed.
Definition lost_tx (v : s_tx) (ins : list txin) (st : pstatus) (pr lock : Z) : tx := mkTx (s_version v) ins (map parsed_out (s_outs v)) lock 1 st pr.
Lemma drop_lost : forall v ins pr, shaped ins (s_ins v) -> drop_witnesses (lost_tx v ins FAILED pr 0) = lost_tx v ins DONE pr 0.
Proof.
  intros v ins pr S. unfold drop_witnesses, lost_tx. cbn [t_version t_ins t_outs t_segflag t_parsed]. f_equal. unfold shaped in S. induction S as [|e i ins l (o & ->) S IH]; cbn [map]; [reflexivity|]. rewrite IH.
  destruct o; reflexivity.
Qed.
Lemma lost_holds : forall v ins pr lock, tx_ok v -> no_witnesses v -> shaped ins (s_ins v) -> lock = s_lock v -> tx_holds (lost_tx v ins DONE pr lock) v.
Proof.
  intros v ins pr lock (V & L & FI & FO) NW S E. unfold no_witnesses in NW. unfold tx_holds, lost_tx. cbn [t_version t_lock t_ins t_outs].
  split; [reflexivity|]. split; [exact V|]. split; [exact E|]. split; [exact L|]. split.
  - unfold shaped in S. induction S as [|e i ins l (o & ->) S IH]; [constructor|].
    apply Forall_cons_iff in FI as (I1 & I2). apply Forall_cons_iff in NW as (N1 & N2). constructor; [|apply IH; auto].
    destruct I1 as (P1 & P2 & P3 & P4 & P5 & P6 & P7). unfold txin_holds. cbn [parsed_in ti_hash ti_index ti_script ti_seq ti_wit].
    split; [reflexivity|]. split; [exact P1|]. split; [exact P2|]. split; [reflexivity|]. split; [exact P3|]. split; [apply parsed_script_holds; auto|].
    split; [reflexivity|]. split; [exact P4|]. rewrite N1. unfold witness_holds. destruct o; cbn; (split; [reflexivity|]; split; [reflexivity|]; split; [reflexivity|]; split; [constructor|reflexivity]).
  - apply F2_map. eapply Forall_impl; [|exact FO]. intros o (O1 & O2 & O3). unfold txout_holds. cbn [parsed_out to_amount to_script].
    split; [reflexivity|]. split; [exact O1|apply parsed_script_holds; auto].
Qed.
Lemma lost_length : forall v ins st pr lock, tx_ok v -> shaped ins (s_ins v) -> 1 <= len (s_ins v) < 253 -> len (s_outs v) < 253 ->
  tx_length (lost_tx v ins st pr lock) = len (before_witness v) + 2.
Proof.
  intros v ins st pr lock (V & L & FI & FO) S NI NO. pose proof (len_nonneg _ (s_outs v)). rewrite (before_len v NI NO). unfold tx_length.
  assert (SG : tx_isSegwit (lost_tx v ins st pr lock) = false).
  { unfold tx_isSegwit, lost_tx. cbn [t_ins]. clear - S. unfold shaped in S. induction S as [|e i ins l (o & ->) S IH]; [reflexivity|]. cbn [existsb]. rewrite IH. destruct o; reflexivity. }
  rewrite SG. cbn [b2z]. unfold lost_tx. cbn [t_ins t_outs].
  assert (LI : len ins = len (s_ins v)) by (unfold len; rewrite (F2_len' _ _ _ S); reflexivity).
  assert (LO : len (map parsed_out (s_outs v)) = len (s_outs v)) by (unfold len; rewrite map_length; auto).
  rewrite LI, LO, !lenVarInt_spec by lia. rewrite !compact_one by lia.
  rewrite sum_outs by auto.
  assert (SI : zsum (map (fun i => txin_length i + 0) ins) = len (flat_map wire_in (s_ins v))).
  { apply flat_len. clear - S FI. unfold shaped in S. induction S as [|e i ins l (o & ->) S IH]; constructor; apply Forall_cons_iff in FI as (F1 & F2); [rewrite pin_length by auto; lia|auto]. }
  rewrite SI. rewrite !len_cons, !len_nil. lia.
Qed.
(** The rest of the parse of the transaction. *)
Lemma tail_lost : forall v p0 bs st, tx_ok v -> 1 <= len (s_ins v) < 253 -> len (s_outs v) < 253 -> (length bs <= length (s_ins v))%nat -> Forall (fun b => 253 <= b) bs -> length bs = length (s_ins v) \/ st = [] ->
  tail p0 (s3v v) (bs ++ st) = Ok (lost_tx v (losts (s_ins v) bs) FAILED (len (before_witness v) + len bs) 0, len (before_witness v) + len bs - p0, st).
Proof.
  intros v p0 bs st K NI NO L F C. unfold tail, s3v. cbn [t_segflag t_ins t_outs t_parsed t_version t_lock]. rewrite <- (bw_len v K NI NO), Z.eqb_refl. change (0 <? 1) with true. cbn [andb].
  rewrite wits_lost by auto. cbn [bind].
  assert (X : parse_more txin_parse_wit txin_wit_status (losts (s_ins v) bs) st = Ok (losts (s_ins v) bs, 0, st, true)).
  { destruct (s_ins v) as [|i l]; [cbn in NI; lia|]. destruct bs as [|b bs]; cbn [losts parse_more]; unfold txin_wit_status; cbn [parsed_in ti_wit lost bad_wit wi_status];
      destruct st; reflexivity. }
  rewrite X. cbn [bind]. cbv iota. rewrite Z.add_0_r. reflexivity.
Qed.
Section Mid.
Variable v : s_tx.
Hypothesis K : tx_ok v.
Hypothesis NI : 1 <= len (s_ins v) < 253.
Hypothesis NO : len (s_outs v) < 253.
Hypothesis BB : bytes_ok (before_witness v).
Lemma mid_lost : forall p s q bs st, after p s -> before_witness v = p ++ q -> q <> [] -> bytes_ok (q ++ bs ++ st) ->
  (length bs <= length (s_ins v))%nat -> Forall (fun b => 253 <= b) bs -> length bs = length (s_ins v) \/ st = [] ->
  tx_parse_body s (q ++ bs ++ st) = Ok (lost_tx v (losts (s_ins v) bs) FAILED (len (before_witness v) + len bs) 0, len (before_witness v) + len bs - t_parsed s, st).
Proof.
  intros p s q bs st A E NQ BZ L F C. pose proof BZ as BZ'. apply bytes_ok_app in BZ' as [BQ BY].
  pose proof BB as B. rewrite E in B. apply bytes_ok_app in B as [BP _].
  pose proof (F7_wire v (bs ++ st) K BB BY NI NO) as F7. rewrite E, <- app_assoc in F7.
  assert (NZ : q ++ bs ++ st <> []) by (destruct q; [congruence|discriminate]).
  pose proof (after_app _ _ _ _ _ A BP BZ NZ F7 eq_refl) as F1. destruct A as (A2 & A3 & _).
  rewrite (M_fwd 1 SG1 _ _ _ _ A2 A3 BZ F1 eq_refl). apply tail_lost; auto.
Qed.
End Mid.

(** ** Steps of the object *)
Section Steps.
Variable uncompress : list Z -> list Z -> outcome (list Z).
Variable valid : list Z -> bool.
Variable garbage : list Z.
Variable junk : nat -> Z * Z * Z.
Notation parse := (el_parse uncompress valid garbage junk).
Notation body := (el_body uncompress valid garbage junk).
Definition shift (k : Z) (r : outcome (electrum * Z * list Z)) : outcome (electrum * Z * list Z) :=
  let! x := r in let '(e, n, st) := x in Ok (e, n + k, st).
Lemma shift_shift : forall j k r, shift j (shift k r) = shift (k + j) r.
Proof. intros j k [[[e n] st]|]; cbn [shift bind]; [|reflexivity]. rewrite Z.add_assoc. reflexivity. Qed.
(** The object while the magic bytes are read, [p] of them so far, and then the transaction. *)
Definition e_in (t : tx) (pos : Z) : electrum := mkEl t false None INCOMPLETE pos.
Lemma prefix_past : forall pos st, 6 <= pos -> prefix_loop pos st = (pos, st, false).
Proof. intros pos [|c st] L; [reflexivity|]. cbn [prefix_loop]. destruct (Z.ltb_spec pos 6); [lia|reflexivity]. Qed.
Lemma parse_in : forall t pos st, parse (e_in t pos) st = body (e_in t pos) st.
Proof. reflexivity. Qed.
Lemma parse_start : forall e st, el_status e = DONE -> parse e st = parse (e_in tx_new 0) st.
Proof. intros e st D. unfold el_parse. rewrite D. reflexivity. Qed.
Lemma prefix_part : forall m p r, skipn p el_prefix = m ++ r -> (p <= 6)%nat -> prefix_loop (Z.of_nat p) m = (Z.of_nat (p + length m), [], false).
Proof.
  induction m as [|c m IH]; intros p r E L; [cbn [prefix_loop length]; rewrite Nat.add_0_r; reflexivity|].
  assert (P : (p < 6)%nat) by (destruct (le_lt_dec 6 p); [|auto]; rewrite skipn_all2 in E by (cbn; lia); discriminate E).
  cbn [prefix_loop]. destruct (Z.ltb_spec (Z.of_nat p) 6); [|lia]. rewrite Nat2Z.id.
  assert (N : nth p el_prefix 0 = c /\ skipn (S p) el_prefix = m ++ r).
  { clear - E P. do 6 (destruct p as [|p]; [cbn in E |- *; injection E as -> E; auto|]). lia. }
  destruct N as (-> & N). rewrite Z.eqb_refl. replace (Z.of_nat p + 1) with (Z.of_nat (S p)) by lia. rewrite (IH (S p) r) by (auto; lia). cbn [length]. do 3 f_equal. lia.
Qed.
Lemma prefix_whole : forall p st, (p <= 6)%nat -> prefix_loop (Z.of_nat p) (skipn p el_prefix ++ st) = (6, st, false).
Proof. intros p st L. do 7 (destruct p as [|p]; [destruct st; reflexivity|]). lia. Qed.
Lemma step_magic : forall p m r, skipn p el_prefix = m ++ r -> (p <= 6)%nat -> parse (e_in tx_new (Z.of_nat p)) m = Ok (e_in tx_new (Z.of_nat (p + length m)), len m, []).
Proof.
  intros p m r E L. rewrite parse_in. unfold el_body, e_in. cbn [el_parsed el_segwit el_tx el_metas]. rewrite (prefix_part m p r) by auto. cbn [negb andb].
  unfold el_after. cbn [tx_new t_status pstatus_eqb andb]. do 3 f_equal. unfold len. lia.
Qed.
Lemma after_count : forall t sg ms stat p0 p1 pos st, el_after uncompress valid garbage t sg ms stat p0 pos st = shift (p1 - p0) (el_after uncompress valid garbage t sg ms stat p1 pos st).
Proof.
  intros t sg ms stat p0 p1 pos st.
  assert (B : forall t ms, segwit_body uncompress valid garbage t ms p0 pos st = shift (p1 - p0) (segwit_body uncompress valid garbage t ms p1 pos st)).
  { intros t' ms'. unfold segwit_body. destruct (segwit_metas uncompress valid garbage _ pos ms' st) as [[[l q] r]|]; cbn [bind shift]; [|reflexivity].
    destruct (read_loop_o _ q _ (t_lock t') r) as [[[k q2] r2]|]; cbn [bind shift]; [|reflexivity]. do 3 f_equal. lia. }
  assert (C : forall e : electrum, Ok (e, pos - p0, st) = shift (p1 - p0) (Ok (e, pos - p1, st))) by (intros e; cbn [shift bind]; do 3 f_equal; lia).
  unfold el_after. destruct (pstatus_eqb (t_status t) FAILED); [destruct (at_witness t); [apply B|apply C]|].
  destruct (sg && pstatus_eqb (t_status t) DONE); [destruct ms; [apply B|reflexivity]|apply C].
Qed.
Lemma step_cross : forall p st, (p <= 6)%nat -> parse (e_in tx_new (Z.of_nat p)) (skipn p el_prefix ++ st) = shift (6 - Z.of_nat p) (parse (e_in tx_new 6) st).
Proof.
  intros p st L. rewrite !parse_in. unfold el_body, e_in. cbn [el_parsed el_segwit el_tx el_metas]. rewrite prefix_whole, prefix_past by (auto; lia). 
  destruct (negb false && match st with [] => false | _ :: _ => true end && negb (pstatus_eqb (t_status tx_new) FAILED)).
  - destruct (tx_parse tx_new st) as [[[t n] st2]|]; cbn [bind]; [|reflexivity]. destruct (t_status t); [|apply after_count|apply after_count].
    destruct (legacy_metas uncompress valid garbage (t_ins t) (new_metas junk (length (t_ins t)))) as [[[ins ms] bad]|]; cbn [bind]; [|reflexivity].
    destruct bad; [cbn [shift bind]; do 3 f_equal; lia|apply after_count].
  - apply after_count.
Qed.
(** The pieces behind the magic bytes. *)
Lemma feed_magic : forall chunks p x, (p <= 6)%nat -> Forall (fun c => c <> [] /\ bytes_ok c) chunks -> concat chunks = skipn p el_prefix ++ x -> x <> [] ->
  exists more, more <> [] /\ Forall (fun c => c <> [] /\ bytes_ok c) more /\ concat more = x /\ (forall a b, more = a ++ b -> a <> [] -> exists a', chunks = a' ++ b) /\
    feed parse el_status (e_in tx_new (Z.of_nat p)) chunks = shift (6 - Z.of_nat p) (feed parse el_status (e_in tx_new 6) more).
Proof.
  induction chunks as [|c cs IH]; intros p x L F E NX.
  - cbn [concat] in E. symmetry in E. apply app_eq_nil in E as (_ & E). contradiction.
  - apply Forall_cons_iff in F as ((NC & BC) & F). cbn [concat] in E. cbn [feed]. destruct (le_lt_dec (length c) (length (skipn p el_prefix))) as [Q|Q].
    + destruct (split_left c (concat cs) (skipn p el_prefix) x E ltac:(unfold len; lia)) as (q & E1 & E2).
      rewrite (step_magic p c q E1 L). cbn [bind]. change (el_status (e_in tx_new (Z.of_nat (p + length c)))) with INCOMPLETE. cbv iota.
      assert (L2 : (p + length c <= 6)%nat) by (rewrite skipn_length in Q; cbn [el_prefix length] in Q; lia).
      assert (E3 : concat cs = skipn (p + length c) el_prefix ++ x).
      { rewrite E2. f_equal. clear - E1. assert (G : forall (A : Type) n m (l : list A), skipn (n + m) l = skipn m (skipn n l)) by (intros A n m l; revert l; induction n as [|n IH]; intros [|a l]; cbn [Nat.add skipn]; auto; destruct m; reflexivity).
        rewrite G, E1, skipn_app, Nat.sub_diag, skipn_all. reflexivity. }
      destruct (IH _ x L2 F E3 NX) as (more & M1 & M2 & M3 & M5 & M4). exists more. do 3 (split; [assumption|]).
      split; [intros a b EM NA; destruct (M5 a b EM NA) as [a' ->]; exists (c :: a'); reflexivity|]. rewrite M4.
      destruct (feed parse el_status (e_in tx_new 6) more) as [[[e n] st]|]; cbn [shift bind app]; [|reflexivity]. do 3 f_equal. unfold len. lia.
    + destruct (split_left (skipn p el_prefix) x c (concat cs) (eq_sym E) ltac:(unfold len; lia)) as (q & E1 & E2).
      assert (NQ : q <> []) by (intros ->; rewrite app_nil_r in E1; rewrite E1 in Q; lia).
      exists (q :: cs). split; [discriminate|]. split; [constructor; [split; [exact NQ|rewrite E1 in BC; apply bytes_ok_app in BC; tauto]|exact F]|]. split; [cbn [concat]; auto|].
      split; [intros [|a0 a] b EM NA; [congruence|]; cbn [app] in EM; exists (c :: a); cbn [app]; congruence|].
      rewrite E1, (step_cross p q L). cbn [feed]. destruct (parse (e_in tx_new 6) q) as [[[e n] st]|]; cbn [shift bind]; [|reflexivity].
      destruct (el_status e); cbn [shift bind]; try reflexivity. destruct (feed parse el_status e cs) as [[[e2 n2] st2]|]; cbn [bind shift]; [|reflexivity]. do 3 f_equal. lia.
Qed.
(** A piece inside the transaction, and one that reaches the witnesses. *)
Lemma step_tx : forall t pos c t1 n, 6 <= pos -> c <> [] -> t_status t <> FAILED -> tx_parse t c = Ok (t1, n, []) -> t_status t1 = INCOMPLETE -> parse (e_in t pos) c = Ok (e_in t1 (pos + n), n, []).
Proof.
  intros t pos c t1 n L NC NF E S. rewrite parse_in. unfold el_body, e_in. cbn [el_parsed el_segwit el_tx el_metas]. rewrite prefix_past by auto. cbn [negb].
  destruct c as [|b c]; [contradiction|]. assert (X : pstatus_eqb (t_status t) FAILED = false) by (destruct (t_status t); [reflexivity|reflexivity|contradiction]).
  rewrite X. cbn [andb negb]. rewrite E. cbn [bind]. rewrite S. unfold el_after. rewrite S. cbn [pstatus_eqb andb]. do 3 f_equal. lia.
Qed.
Lemma step_bad : forall t pos c v ins pr n st, 6 <= pos -> c <> [] -> t_status t <> FAILED -> 1 <= len (s_ins v) -> shaped ins (s_ins v) ->
  tx_parse t c = Ok (lost_tx v ins FAILED pr 0, n, st) ->
  parse (e_in t pos) c = segwit_body uncompress valid garbage (lost_tx v ins DONE pr 0) (map (fun _ => mkEm hp_new 0 0 0) (s_ins v)) pos (pos + n) st.
Proof.
  intros t pos c v ins pr n st L NC NF NI S E. rewrite parse_in. unfold el_body, e_in. cbn [el_parsed el_segwit el_tx el_metas]. rewrite prefix_past by auto. cbn [negb].
  destruct c as [|b c]; [contradiction|]. assert (X : pstatus_eqb (t_status t) FAILED = false) by (destruct (t_status t); [reflexivity|reflexivity|contradiction]).
  rewrite X. cbn [andb negb]. rewrite E. cbn [bind]. change (t_status (lost_tx v ins FAILED pr 0)) with FAILED. cbv iota. unfold el_after. change (t_status (lost_tx v ins FAILED pr 0)) with FAILED. cbn [pstatus_eqb].
  assert (AW : at_witness (lost_tx v ins FAILED pr 0) = true).
  { unfold at_witness, lost_tx. cbn [t_ins]. unfold shaped in S. destruct S as [|e i ins l (o & ->) S]; [cbn in NI; lia|]. destruct o; reflexivity. }
  rewrite AW, drop_lost by auto. f_equal. unfold lost_tx. cbn [t_ins]. apply map_same. apply (F2_len' _ _ _ S).
Qed.
End Steps.

(** ** Segwit transactions *)
Section Segwit.
Variable uncompress : list Z -> list Z -> outcome (list Z).
Variable valid : list Z -> bool.
Variable garbage : list Z.
Variable junk : nat -> Z * Z * Z.
Variable keys : s_einput -> list Z.
Notation parse := (el_parse uncompress valid garbage junk).
Notation rk := (read_key uncompress valid garbage keys).
Lemma finish_feed : forall n start t e c cs p0 pos a s s3 r3, t_status t = DONE -> (forall lock, tx_length (relock t lock) = start - 4) -> length (fst s) = n -> (1 <= n)%nat -> 6 <= start ->
  start <= pos <= start + 13 -> metas_at start (fst s) pos -> parse e c = segwit_body uncompress valid garbage (relock t (snd s)) (fst s) p0 pos a ->
  body_loop uncompress valid garbage start (Z.of_nat n) s pos (a ++ concat cs) = Ok (s3, start + 102 * Z.of_nat n + 4, r3) -> metas_fine s3 ->
  feed parse el_status e (c :: cs) = Ok (obj t n start s3 (start + 102 * Z.of_nat n + 4), start + 102 * Z.of_nat n + 4 - p0, r3).
Proof.
  intros n start t e c cs p0 pos a s s3 r3 D TL Ls NP S6 PE M EP EB F3. cbn [feed]. rewrite EP. rewrite (body_obj uncompress valid garbage t n start TL) by auto.
  pose proof (body_good uncompress valid garbage n start) as [Gn Gs Gr Ga _ _].
  destruct (Ga s pos a (concat cs) s3 _ r3 (conj Ls M) ltac:(right; lia) EB F3) as (s1 & p1 & r1 & X1 & F1 & C).
  destruct (Gr s pos a s1 p1 r1 (conj Ls M) ltac:(right; lia) X1 F1) as (Y1 & Y2 & (Y3 & Y3') & Y4).
  rewrite X1. cbn [bind]. unfold obj at 1. cbn [el_status]. destruct C as [(-> & C)|(N & -> & -> & ->)].
  - destruct (Z.eqb_spec p1 (start + 102 * Z.of_nat n + 4)) as [Q|Q].
    + rewrite Q in *. rewrite Gs in C by (auto; lia). assert (C1 : s1 = s3) by congruence. assert (C2 : concat cs = r3) by congruence. rewrite C1, C2. reflexivity.
    + rewrite (feed_obj uncompress valid garbage junk t n start D S6 TL cs s1 p1 s3 r3) by (auto; lia). cbn [bind app]. do 3 f_equal. lia.
  - rewrite Z.eqb_refl. reflexivity.
Qed.
Variables (v : s_tx) (x : s_einput) (xs : list s_einput) (k : hdpub) (ks : list hdpub).
Hypothesis K : tx_ok v.
Hypothesis NI : 1 <= len (s_ins v) <= 5.
Hypothesis NO : len (s_outs v) < 253.
Hypothesis LX : length (x :: xs) = length (s_ins v).
Hypothesis BB : bytes_ok (before_witness v).
Hypothesis FF : Forall fine (x :: xs).
Hypothesis R1 : rk x k.
Hypothesis RS : Forall2 rk xs ks.
Hypothesis KF : Forall key_fine (k :: ks).
Notation n := (length (s_ins v)).
Notation start := (6 + len (before_witness v)).
Notation stop := (start + 102 * Z.of_nat n + 4).
Definition fresh : list emeta * Z := (map (fun _ => mkEm hp_new 0 0 0) (s_ins v), 0).
Definition final : list emeta * Z := (map (fun p => told (fst p) (snd p)) (combine (x :: xs) (k :: ks)), s_lock v).
Definition data (rest : list Z) : list Z := e_how x ++ keys x ++ e_path x ++ flat_map (fun x => witness_with (keys x) x) xs ++ le_bytes 4 (s_lock v) ++ rest.
Lemma n5 : (1 <= n <= 5)%nat.
Proof. unfold len in NI. lia. Qed.
Lemma final_fine : metas_fine final.
Proof.
  unfold metas_fine, final. cbn [fst]. clear - KF. generalize (x :: xs) as l. induction KF as [|h t H F IH]; intros [|y l]; cbn [combine map]; constructor; auto.
Qed.
Lemma loop_ok : forall m rest, (m <= 5)%nat -> body_loop uncompress valid garbage start (Z.of_nat n) fresh (start + Z.of_nat m) (skipn m (head13 x) ++ data rest) = Ok (final, stop, rest).
Proof.
  intros m rest M. pose proof n5. set (bs := repeat 0 n). assert (LB : length bs = n) by apply repeat_length.
  pose proof (body_ok uncompress valid garbage keys v bs x xs k ks m (start + Z.of_nat m) rest K ltac:(lia) NO LB FF R1 RS ltac:(lia) eq_refl) as B.
  assert (TL : forall lock, tx_length (relock (clean_tx v bs 0) lock) = start - 4).
  { intros lock. change (relock (clean_tx v bs 0) lock) with (clean_tx v bs lock). rewrite clean_length by (auto; lia). lia. }
  assert (FE : map (fun _ : s_einput => mkEm hp_new 0 0 0) (x :: xs) = fst fresh) by (apply map_same; exact LX). rewrite FE in B.
  change (clean_tx v bs 0) with (relock (clean_tx v bs 0) (snd fresh)) in B at 1. rewrite (body_obj uncompress valid garbage (clean_tx v bs 0) n start TL) in B by (unfold fresh; cbn [fst]; apply map_length).
  unfold data. destruct (body_loop uncompress valid garbage start (Z.of_nat n) fresh (start + Z.of_nat m) _) as [[[s1 p1] r1]|]; cbn [bind] in B; [|discriminate].
  set (L := len (segwit_with keys v (x :: xs))) in *.
  assert (LE : L = stop) by (unfold L; rewrite (segwit_len uncompress valid garbage keys v (x :: xs) (k :: ks)) by auto; unfold len; rewrite LX; lia).
  assert (Q1 : r1 = rest) by congruence. assert (Q2 : p1 = L) by (assert (Q : p1 - 0 = L) by congruence; lia).
  assert (Q3 : forall A (f : electrum -> A) y, f (obj (clean_tx v bs 0) n start s1 p1) = y -> y = y) by auto. clear Q3.
  apply (f_equal (fun r => match r with Ok (o, _, _) => (el_metas o, t_lock (el_tx o)) | UB => (None, 0) end)) in B. unfold obj in B. cbn [el_metas el_tx relock t_lock clean_tx] in B.
  destruct s1 as [l1 k1]. cbn [fst snd] in B. assert (B1 : l1 = fst final).
  { replace (m - 5)%nat with 0%nat in B by lia. rewrite without_0 in B. unfold final. cbn [fst combine map]. unfold told at 1. cbn [fst snd]. congruence. }
  assert (B2 : k1 = s_lock v) by congruence. rewrite Q1, Q2, LE, B1, B2. reflexivity.
Qed.
Lemma data_front : forall rest, flat_map (fun x => witness_with (keys x) x) (x :: xs) ++ le_bytes 4 (s_lock v) ++ rest = head13 x ++ data rest.
Proof. intros rest. cbn [flat_map]. unfold witness_with at 1, data, head13. rewrite <- !app_assoc. reflexivity. Qed.
Lemma feed_tx : forall chunks p s t q rest, after p s -> (forall c, tx_parse t c = tx_parse_body s c) -> t_status t <> FAILED -> before_witness v = p ++ q -> q <> [] ->
  (forall l o a b, s_outs v = l ++ [o] -> chunks = a ++ b -> a <> [] -> ~ unlucky (len (so_script o)) (len q - len (concat a))) ->
  Forall (fun c => c <> [] /\ bytes_ok c) chunks -> concat chunks = q ++ head13 x ++ data rest ->
  exists ins pr, shaped ins (s_ins v) /\
    feed parse el_status (e_in t (6 + t_parsed s)) chunks = Ok (obj (lost_tx v ins DONE pr 0) n start final stop, stop - (6 + t_parsed s), rest).
Proof.
  pose proof n5 as N5. pose proof (len_nonneg _ (before_witness v)) as BN.
  induction chunks as [|c cs IH]; intros p s t q rest A T NF E NQ CUT F CE.
  - cbn [concat] in CE. destruct q; [contradiction|discriminate CE].
  - apply Forall_cons_iff in F as ((NC & BC) & F). cbn [concat] in CE. pose proof A as ((P0 & _) & _).
    destruct (Z.lt_ge_cases (len c) (len q)) as [Q|Q].
    + destruct (split_left c (concat cs) q _ CE ltac:(lia)) as (q' & -> & E2). assert (NQ' : q' <> []) by (intros ->; rewrite app_nil_r in Q; lia).
      assert (CQ : cut_ok v q').
      { intros l o EO. pose proof (CUT l o [c] cs EO eq_refl ltac:(discriminate)) as X. cbn [concat] in X. rewrite app_nil_r, len_app in X.
        replace (len c + len q' - len c) with (len q') in X by lia. exact X. }
      destruct (one_before v K ltac:(lia) NO BB p s c q' A E NC NQ' CQ) as (s1 & A1 & P1). pose proof A1 as (_ & S1 & _).
      destruct (IH (p ++ c) s1 s1 q' rest A1) as (ins & pr & SH & FE); auto; [intros c'; unfold tx_parse; rewrite S1; reflexivity|congruence|rewrite <- app_assoc; exact E| |].
      { intros l o a b EO EC NA. pose proof (CUT l o (c :: a) b EO ltac:(rewrite EC; reflexivity) ltac:(discriminate)) as X. cbn [concat] in X. rewrite !len_app in X.
        replace (len c + len q' - (len c + len (concat a))) with (len q' - len (concat a)) in X by lia. exact X. }
      exists ins, pr. split; [exact SH|]. cbn [feed]. rewrite (step_tx uncompress valid garbage junk t (6 + t_parsed s) c s1 (t_parsed s1 - t_parsed s)) by (auto; try lia; rewrite T; exact P1).
      cbn [bind]. change (el_status (e_in s1 _)) with INCOMPLETE. cbv iota. replace (6 + t_parsed s + (t_parsed s1 - t_parsed s)) with (6 + t_parsed s1) by lia. rewrite FE. cbn [bind app]. do 3 f_equal. lia.
    + destruct (split_left q (head13 x ++ data rest) c (concat cs) (eq_sym CE) Q) as (y & -> & E2).
      set (m := Nat.min n (length y)). set (bs := firstn m y). set (a := skipn m y).
      assert (LB : length bs = m) by (unfold bs; rewrite firstn_length; unfold m; lia).
      assert (YE : y = bs ++ a) by (unfold bs, a; rewrite firstn_skipn; reflexivity).
      assert (M5 : (m <= 5)%nat) by (unfold m; lia).
      assert (MY : (m <= length y)%nat) by (unfold m; lia).
      assert (BE : bs = firstn m (head13 x)).
      { apply (f_equal (firstn m)) in E2. rewrite !firstn_app in E2. rewrite head_len in E2. replace (m - 13)%nat with 0%nat in E2 by lia. replace (m - length y)%nat with 0%nat in E2 by lia.
        rewrite !firstn_O, !app_nil_r in E2. auto. }
      assert (AE : a ++ concat cs = skipn m (head13 x) ++ data rest).
      { apply (f_equal (skipn m)) in E2. rewrite !skipn_app in E2. rewrite head_len in E2. replace (m - 13)%nat with 0%nat in E2 by lia. replace (m - length y)%nat with 0%nat in E2 by lia. cbn [skipn] in E2. auto. }
      assert (BIG : Forall (fun b => 253 <= b) bs) by (rewrite BE; apply (head_big junk); replace (m - 5)%nat with 0%nat by lia; exact (Forall_nil _)).
      assert (CC : length bs = n \/ a = []).
      { rewrite LB. destruct (le_lt_dec n (length y)); [left; unfold m; lia|right]. unfold a. apply skipn_all2. unfold m. lia. }
      rewrite YE in BC |- *. pose proof (mid_lost v K ltac:(lia) NO BB p s q bs a A E NQ BC ltac:(rewrite LB; unfold m; lia) BIG CC) as ML.
      set (ins := losts (s_ins v) bs) in *. assert (SH : shaped ins (s_ins v)) by apply losts_shaped.
      exists ins, (len (before_witness v) + len bs). split; [exact SH|].
      assert (NE : q ++ bs ++ a <> []) by (destruct q; [contradiction|discriminate]).
      pose proof (step_bad uncompress valid garbage junk t (6 + t_parsed s) (q ++ bs ++ a) v ins _ _ a ltac:(lia) NE NF ltac:(lia) SH (eq_trans (T _) ML)) as SB.
      assert (LBZ : len bs = Z.of_nat m) by (unfold len; rewrite LB; reflexivity).
      replace (6 + t_parsed s + (len (before_witness v) + len bs - t_parsed s)) with (start + Z.of_nat m) in SB by lia.
      apply (finish_feed n start (lost_tx v ins DONE (len (before_witness v) + len bs) 0) _ _ cs (6 + t_parsed s) (start + Z.of_nat m) a fresh final rest); auto; try lia.
      * intros lock. change (relock (lost_tx v ins DONE (len (before_witness v) + len bs) 0) lock) with (lost_tx v ins DONE (len (before_witness v) + len bs) lock). rewrite lost_length by (auto; lia). lia.
      * unfold fresh. cbn [fst]. apply map_length.
      * unfold fresh. cbn [fst]. apply fresh_at. lia.
      * rewrite AE. apply loop_ok. exact M5.
      * apply final_fine.
Qed.
End Segwit.

Theorem segwit_pieces : forall garbage junk e v xs rest chunks, el_status e = DONE -> tx_ok v -> no_witnesses v -> 1 <= len (s_ins v) <= 5 -> len (s_outs v) < 253 ->
  (forall os o a b, s_outs v = os ++ [o] -> chunks = a ++ b ->
     ~ unlucky (len (so_script o)) (6 + len (before_witness v) - len (concat a))) ->
  length xs = length (s_ins v) -> Forall einput_ok xs -> Forall key_on_curve xs ->
  Forall (fun c => c <> [] /\ bytes_ok c) chunks -> concat chunks = electrum_segwit v xs ++ rest ->
  exists e', feed (el_parse uncompress_pubkey pt_valid_bytes garbage junk) el_status e chunks = Ok (e', len (electrum_segwit v xs), rest) /\
    el_status e' = DONE /\ electrum_holds e' v xs /\ amounts_hold e' xs.
Proof.
  intros garbage junk e v [|x xs] rest chunks D TX NW NI NO SO LX OK OC F CE; [unfold len in NI; cbn [length] in LX; lia|].
  set (kb := fun y => xpub_bytes (e_key y)).
  assert (FF : Forall fine (x :: xs)) by (eapply Forall_impl; [exact ok_fine|exact OK]).
  assert (RK : forall ys, Forall einput_ok ys -> Forall key_on_curve ys -> Forall2 (read_key uncompress_pubkey pt_valid_bytes garbage kb) ys (map key_of ys)).
  { clear. induction ys as [|y ys IH]; intros OK OC; cbn [map]; [constructor|]. apply Forall_cons_iff in OK as (O1 & O2). apply Forall_cons_iff in OC as (C1 & C2). constructor; [apply key_read; [apply O1|auto]|auto]. }
  pose proof (concat_bytes _ F) as BT. rewrite CE in BT.
  assert (WE : electrum_segwit v (x :: xs) ++ rest = skipn 0 el_prefix ++ before_witness v ++ head13 x ++ data kb v x xs rest).
  { change (skipn 0 el_prefix) with electrum_magic. unfold electrum_segwit, segwit_with. rewrite <- !app_assoc. rewrite <- (data_front kb v x xs rest). reflexivity. }
  rewrite WE in CE, BT. apply bytes_ok_app in BT as [_ BT]. apply bytes_ok_app in BT as [BB _].
  assert (NB : before_witness v <> []) by (intros X; pose proof (before_len v ltac:(lia) NO) as BL; rewrite X, len_nil in BL; pose proof (len_nonneg _ (flat_map wire_in (s_ins v))); pose proof (len_nonneg _ (flat_map wire_out (s_outs v))); lia).
  destruct (feed_magic uncompress_pubkey pt_valid_bytes garbage junk chunks 0 _ ltac:(lia) F CE) as (more & M1 & M2 & M3 & M5 & M4); [destruct (before_witness v); [contradiction|discriminate]|].
  assert (KF : Forall key_fine (key_of x :: map key_of xs)) by (change (key_of x :: map key_of xs) with (map key_of (x :: xs)); apply Forall_map, Forall_forall; intros y _; unfold key_fine, key_of; cbn [hp_status]; discriminate).
  destruct (feed_tx uncompress_pubkey pt_valid_bytes garbage junk kb v x xs (key_of x) (map key_of xs) TX NI NO LX BB FF
    (key_read garbage x (proj1 (Forall_inv OK)) (Forall_inv OC)) (RK xs (Forall_inv_tail OK) (Forall_inv_tail OC)) KF more [] s0 tx_new (before_witness v) rest after_nil) as (ins & pr & SH & FE); auto; [discriminate| |].
  { intros l o a b EO EM NA. destruct (M5 a b EM NA) as [a' EC]. specialize (SO l o a' b EO EC).
    assert (X : len (concat chunks) = 6 + len (concat more)) by (rewrite CE, M3, len_app; reflexivity).
    rewrite EC, EM, !concat_app, !len_app in X.
    replace (6 + len (before_witness v) - len (concat a')) with (len (before_witness v) - len (concat a)) in SO by lia. exact SO. }
  exists (obj (lost_tx v ins DONE pr 0) (length (s_ins v)) (6 + len (before_witness v)) (final v x xs (key_of x) (map key_of xs)) (6 + len (before_witness v) + 102 * Z.of_nat (length (s_ins v)) + 4)).
  assert (FS : feed (el_parse uncompress_pubkey pt_valid_bytes garbage junk) el_status e chunks = feed (el_parse uncompress_pubkey pt_valid_bytes garbage junk) el_status (e_in tx_new 0) chunks).
  { destruct chunks as [|c cs]; [cbn [concat] in CE; discriminate CE|]. cbn [feed]. rewrite (parse_start uncompress_pubkey pt_valid_bytes garbage junk e c D). reflexivity. }
  split; [|split; [|split]].
  - rewrite FS. change 0 with (Z.of_nat 0) at 1. rewrite M4. change (6 + t_parsed s0) with 6 in FE. rewrite FE. cbn [shift bind]. do 3 f_equal.
    change (electrum_segwit v (x :: xs)) with (segwit_with kb v (x :: xs)). rewrite (segwit_len uncompress_pubkey pt_valid_bytes garbage kb v (x :: xs) (map key_of (x :: xs))) by auto. unfold len. rewrite LX. lia.
  - unfold obj. cbn [el_status]. rewrite Z.eqb_refl. reflexivity.
  - split; [apply lost_holds; auto|]. split; [exact LX|]. eexists. split; [reflexivity|]. apply told_holds.
  - eexists. split; [reflexivity|]. unfold final. cbn [fst]. apply told_amounts.
Qed.
