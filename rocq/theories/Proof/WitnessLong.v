(** A witness cut at an unlucky place inside a long element's length. *)
From Coq Require Import Lia.
From Verif Require Import Base.Bytes Base.BytesFacts Model.Conversion Model.Stream Model.Script Model.Tx
  Spec.Codecs Spec.Wire Spec.Pieces Spec.Objects Proof.IntVarint Proof.StreamFacts Proof.Chunks Proof.ScriptFacts Proof.WitnessFacts
  Proof.WitnessPieces Proof.TxIo Proof.TxParse Proof.TxPhases Proof.TxChunks Proof.TxSegwit.
Open Scope Z_scope.

Lemma elements_front : forall els w st fuel, wi_len w = len (wi_arr w) -> wi_eparsed w = 0 ->
  wi_elen w = 0 -> wi_curLen w = 0 -> wi_status w = INCOMPLETE ->
  wi_cur w + len els < wi_num w -> 0 <= wi_num w < 253 -> Forall bytes_ok els ->
  len (wi_arr w) + len (flat_map wire_bytes els) < 2^31 ->
  witness_elements (length els + fuel) w (1 + len (wi_arr w)) (flat_map wire_bytes els ++ st) =
  witness_elements fuel (mkWitness (wi_arr w ++ flat_map wire_bytes els) (len (wi_arr w ++ flat_map wire_bytes els)) (wi_num w) (wi_cur w + len els) 0 0 0 (wi_lenLen w)
          INCOMPLETE (wi_parsed w)) (1 + len (wi_arr w ++ flat_map wire_bytes els)) st.
Proof.
  induction els as [|e els IH]; intros w st fuel WL EP E0 C0 S0 NC NR BE SZ.
  - cbn [flat_map app length Nat.add]. rewrite app_nil_r. rewrite len_nil, Z.add_0_r.
    assert (W : mkWitness (wi_arr w) (len (wi_arr w)) (wi_num w) (wi_cur w) 0 0 0 (wi_lenLen w) INCOMPLETE (wi_parsed w) = w).
    { destruct w. cbn in *. congruence. }
    rewrite W. reflexivity.
  - inversion BE as [|? ? B1 B2]; subst. cbn [flat_map] in *. rewrite len_app in SZ. rewrite len_cons in NC.
    pose proof (len_nonneg _ els). pose proof (len_nonneg _ (flat_map wire_bytes els)).
    rewrite <- app_assoc.
    assert (NE : exists c t, wire_bytes e ++ flat_map wire_bytes els ++ st = c :: t).
    { unfold wire_bytes. pose proof (len_nonneg _ e). rewrite len_wire_bytes in SZ.
      pose proof (len_nonneg _ (wi_arr w)). pose proof (len_nonneg _ (compact_size (len e))).
      destruct (varint_len_cs (len e) ltac:(lia)) as (b & t & -> & _). cbn. eauto. }
    destruct NE as (c & t & NE). cbn [length Nat.add witness_elements]. rewrite NE.
    destruct (Z.ltb_spec (wi_cur w) (wi_num w)); [|lia]. rewrite <- NE.
    rewrite element_wire by (auto; lia). cbn [bind]. cbv iota.
    set (w1 := mkWitness _ _ _ _ _ _ _ _ _ _).
    specialize (IH w1 st fuel). cbn [w1 wi_arr wi_len wi_eparsed wi_elen wi_curLen wi_status wi_num wi_cur wi_lenLen wi_parsed] in IH.
    rewrite IH; auto; try lia; [|rewrite len_app; lia].
    rewrite <- !app_assoc, len_cons. repeat (f_equal; try lia).
Qed.

Lemma element_cut : forall w pos pre, wi_eparsed w = 0 -> cut_bytes pre -> witness_element w pos pre =
  Ok (mkWitness (wi_arr w) (wi_len w) (wi_num w) (wi_cur w + 1) 0 0 0 (wi_lenLen w) INCOMPLETE (wi_parsed w), pos + len pre, [], false).
Proof. intros w pos pre E C. unfold witness_element. rewrite E. destruct C as [->|[->|[->|[->|[->| ->]]]]]; reflexivity. Qed.
Lemma cut_len : forall pre, cut_bytes pre -> 1 <= len pre <= 4.
Proof. intros pre [->|[->|[->|[->|[->| ->]]]]]; cbn; lia. Qed.
(* the witness after such a piece *)
Definition short_witness (els1 : list (list Z)) (n k : Z) : witness :=
  mkWitness (flat_map wire_bytes els1) (len (flat_map wire_bytes els1)) n (len els1 + 1) 0 0 0 1
    (if len els1 + 1 =? n then DONE else INCOMPLETE) (1 + len (flat_map wire_bytes els1) + k).
Lemma long_cut : forall w els1 e els2 pre, wi_status w = DONE -> wi_len w = len (wi_arr w) -> len (els1 ++ e :: els2) < 253 ->
  Forall bytes_ok els1 -> len (flat_map wire_bytes els1) < 2^31 -> cut_bytes pre ->
  witness_parse w (len (els1 ++ e :: els2) :: flat_map wire_bytes els1 ++ pre) =
    Ok (short_witness els1 (len (els1 ++ e :: els2)) (len pre), 1 + len (flat_map wire_bytes els1) + len pre, []).
Proof.
  intros w els1 e els2 pre D WL N B SZ C. pose proof (len_nonneg _ (els1 ++ e :: els2)).
  rewrite first_call by (auto; lia). rewrite app_length.
  pose proof (flat_wire_length els1) as FL. pose proof (cut_len pre C) as LC. assert (LN : (1 <= length pre)%nat) by (unfold len in LC; lia).
  replace (S (length (flat_map wire_bytes els1) + length pre))%nat with (length els1 + S (S (length (flat_map wire_bytes els1) - length els1 + (length pre - 1))))%nat by lia.
  set (n := len (els1 ++ e :: els2)) in *. assert (NN : n = len els1 + 1 + len els2) by (unfold n; rewrite len_app, len_cons; lia). pose proof (len_nonneg _ els2).
  pose proof (elements_front els1 (mkWitness [] 0 n 0 0 0 0 1 INCOMPLETE 0) pre (S (S (length (flat_map wire_bytes els1) - length els1 + (length pre - 1)))) eq_refl eq_refl eq_refl eq_refl eq_refl) as F.
  cbn [wi_arr wi_len wi_num wi_cur wi_parsed wi_lenLen app] in F. rewrite len_nil, !Z.add_0_l, Z.add_0_r in F. rewrite F by (auto; lia).
  cbn [witness_elements wi_cur wi_num]. destruct (Z.ltb_spec (len els1) n); [|lia].
  destruct pre as [|p0 pre']; [rewrite len_nil in LC; lia|].
  rewrite element_cut by auto. cbn [bind]. cbv iota. cbn [witness_elements bind].
  cbn [wi_arr wi_len wi_num wi_cur wi_elen wi_eparsed wi_curLen wi_lenLen wi_status wi_parsed]. unfold short_witness. fold n. do 3 f_equal; lia.
Qed.
Lemma front_eq : forall {A} (a b c d : list A), a ++ b = c ++ d -> len b = len d -> a = c.
Proof.
  intros A a b c d E L. assert (LL : len (a ++ b) = len (c ++ d)) by (f_equal; exact E). rewrite !len_app in LL.
  destruct (split_left _ _ _ _ E ltac:(lia)) as (q & -> & ->). rewrite len_app in L. destruct q; [rewrite app_nil_r; reflexivity|].
  rewrite len_cons in L. pose proof (len_nonneg _ q). lia.
Qed.
Lemma cut_of : forall (front e part more tl : list Z), len e < 2^31 -> front ++ wire_bytes e ++ tl = part ++ more -> unlucky (len e) (len more - len tl) ->
  exists pre, part = front ++ pre /\ cut_bytes pre /\ len pre = len (wire_bytes e) + len tl - len more.
Proof.
  intros front e part more tl LE E U. pose proof (len_nonneg _ e).
  assert (X : len front + (len (wire_bytes e) + len tl) = len part + len more) by (rewrite <- !len_app, E; reflexivity).
  pose proof U as [U' _]. cbv zeta in U'. rewrite len_wire_bytes in *.
  destruct (split_left _ _ _ _ E ltac:(lia)) as (pre & -> & EC). rewrite len_app in X.
  exists pre. split; [reflexivity|]. split; [|lia].
  unfold wire_bytes in EC. rewrite <- app_assoc in EC.
  destruct (split_left _ _ _ _ (eq_sym EC) ltac:(lia)) as (q & EQ & EM).
  assert (LQ : len e + len tl <= len more) by lia.
  (* the rest of the element, without what follows *)
  assert (EM2 : exists r, more = r ++ tl /\ compact_size (len e) ++ e = pre ++ r).
  { exists (q ++ e). split; [rewrite EM, <- app_assoc; reflexivity|]. rewrite EQ, <- app_assoc. reflexivity. }
  destruct EM2 as (r & -> & ER). rewrite len_app in U. replace (len r + len tl - len tl) with (len r) in U by lia.
  apply (unlucky_bytes (len e) e pre r); auto.
Qed.
Theorem witness_long_cut : forall w els e part more, wi_status w = DONE -> wi_len w = len (wi_arr w) -> len (els ++ [e]) < 253 ->
  Forall bytes_ok els -> len (flat_map wire_bytes els) < 2^31 -> len e < 2^31 ->
  wire_witness (els ++ [e]) = part ++ more -> unlucky (len e) (len more) ->
  exists w', witness_parse w part = Ok (w', len part, []) /\ feed witness_parse wi_status w [part; more] = Ok (w', len part, more) /\
    wi_status w' = DONE /\ wi_arr w' = flat_map wire_bytes els.
Proof.
  intros w els e part more D WL N B SZ LE E U.
  assert (E' : (len (els ++ [e]) :: flat_map wire_bytes els) ++ wire_bytes e ++ [] = part ++ more).
  { rewrite <- E. unfold wire_witness. rewrite compact_one, flat_map_app by (pose proof (len_nonneg _ (els ++ [e])); lia). cbn [flat_map app]. rewrite !app_nil_r. reflexivity. }
  destruct (cut_of _ e part more [] LE E' ltac:(rewrite len_nil, Z.sub_0_r; exact U)) as (pre & EP & C & _). clear E E'. cbn [app] in EP.
  assert (LP : len part = 1 + len (flat_map wire_bytes els) + len pre) by (rewrite EP, len_cons, len_app; lia).
  assert (P : witness_parse w part = Ok (short_witness els (len (els ++ [e])) (len pre), len part, [])).
  { rewrite LP, EP. apply (long_cut w els e [] pre); auto. }
  assert (S : wi_status (short_witness els (len (els ++ [e])) (len pre)) = DONE).
  { unfold short_witness. cbn [wi_status]. rewrite len_app, len_cons, len_nil. replace (len els + 1 =? len els + (1 + 0)) with true by (symmetry; apply Z.eqb_eq; lia). reflexivity. }
  exists (short_witness els (len (els ++ [e])) (len pre)). split; [exact P|]. split; [|split; [exact S|reflexivity]].
  cbn [feed]. rewrite P. cbn [bind]. rewrite S. cbn [concat app]. rewrite app_nil_r. reflexivity.
Qed.

(** ** The same in a transaction *)
Section Long.
Variable v : s_tx.
Hypothesis K : tx_ok v.
Hypothesis NI : 1 <= len (s_ins v) < 253.
Hypothesis NO : len (s_outs v) < 253.
Variables (l1 : list s_txin) (i : s_txin) (els : list (list Z)) (e : list Z).
Hypothesis EI : s_ins v = l1 ++ [i].
Hypothesis W : Forall wit_ok l1.
Hypothesis N : len (els ++ [e]) < 253.
Hypothesis B : Forall bytes_ok els.
Hypothesis SZ : len (flat_map wire_bytes els) < 2^31.
Variable pre : list Z.
Hypothesis C : cut_bytes pre.
Notation bw := (before_witness v).
Notation wits1 := (flat_map (fun i => wire_witness (si_wit i)) l1).
Notation o := (len bw + len wits1 + 1 + len (flat_map wire_bytes els)).
Notation ins := (map pin1 l1 ++ [parsed_in i (short_witness els (len (els ++ [e])) (len pre))]).
Definition shortst : tx := mkTx (s_version v) ins (map parsed_out (s_outs v)) 0 1 (if len pre =? 4 then DONE else INCOMPLETE) (o + len pre).

Lemma short_done : wi_status (short_witness els (len (els ++ [e])) (len pre)) = DONE.
Proof.
  unfold short_witness. cbn [wi_status]. rewrite len_app, len_cons, len_nil. replace (len els + 1 =? len els + (1 + 0)) with true by (symmetry; apply Z.eqb_eq; lia). reflexivity.
Qed.
Lemma ins_done : Forall (fun e => txin_wit_status e = DONE) ins.
Proof.
  apply Forall_app. split; [apply Forall_map'; reflexivity|]. constructor; [|constructor]. unfold txin_wit_status. cbn [parsed_in ti_wit]. apply short_done.
Qed.
Lemma ins_completed : tx_completed 1 ins (map parsed_out (s_outs v)) = true.
Proof.
  unfold tx_completed. apply andb_true_intro. split; apply forallb_forall; intros x I.
  - apply in_app_iff in I as [I|[<-|[]]].
    + apply in_map_iff in I as (y & <- & _). reflexivity.
    + unfold txin_wit_status. cbn [parsed_in ti_wit ti_status]. rewrite short_done. reflexivity.
  - apply in_map_iff in I as (y & <- & _). reflexivity.
Qed.
Lemma zsum_app : forall a b, zsum (a ++ b) = zsum a + zsum b.
Proof. induction a as [|x a IH]; intros b; cbn [app]; [reflexivity|]. unfold zsum in *. cbn [fold_right]. rewrite IH. lia. Qed.
Lemma ins_sum : len bw + zsum (map (fun i => witness_length (ti_wit i)) ins) = o.
Proof.
  rewrite map_app, zsum_app, sum_wits by exact W. cbn [map parsed_in ti_wit]. unfold witness_length. cbn [short_witness wi_len wi_num zsum fold_right].
  rewrite lenVarInt_spec by (pose proof (len_nonneg _ (els ++ [e])); lia). rewrite compact_one by (pose proof (len_nonneg _ (els ++ [e])); lia).
  change (len [_]) with 1. lia.
Qed.
Lemma short_first : forall t, t_status t = DONE ->
  bytes_ok (bw ++ wits1 ++ len (els ++ [e]) :: flat_map wire_bytes els ++ pre) ->
  tx_parse t (bw ++ wits1 ++ len (els ++ [e]) :: flat_map wire_bytes els ++ pre) = Ok (shortst, o + len pre, []).
Proof.
  intros t S BY. rewrite (parse_to_tail t v _ S K BY NI NO). unfold tail, s3v. t_cbn. rewrite <- (bw_len v K NI NO), Z.eqb_refl.
  change (0 <? 1) with true. cbn [andb]. rewrite EI at 1. rewrite map_app, parse_all_app, parse_wits by auto. cbn [bind map parse_all].
  unfold txin_parse_wit at 1. cbn [pin0 parsed_in ti_wit ti_hash ti_index ti_script ti_seq ti_status ti_parsed].
  rewrite (long_cut witness_new els e [] pre) by auto. cbn [bind].
  change (mkTxin (si_prev i) (si_vout i) (parsed_script (si_sig i)) (si_seq i) (short_witness els (len (els ++ [e])) (len pre)) DONE (len (wire_in i))) with (parsed_in i (short_witness els (len (els ++ [e])) (len pre))).
  rewrite parse_more_done by exact ins_done. cbn [bind]. cbv iota. cbn [read_loop_o bind]. rewrite ins_sum, ins_completed, andb_true_r.
  replace (len bw + (len wits1 + (1 + len (flat_map wire_bytes els) + len pre + 0)) + 0) with (o + len pre) by lia.
  replace (o + len pre =? o + 4) with (len pre =? 4) by (apply Bool.eq_iff_eq_true; rewrite !Z.eqb_eq; lia). unfold shortst. rewrite Z.sub_0_r. reflexivity.
Qed.
Lemma sum_in1 : forall w, zsum (map txin_length (map pin1 l1 ++ [parsed_in i w])) = zsum (map txin_length (map pin0 (s_ins v))).
Proof. intros w. rewrite EI, !map_app. cbn [map]. f_equal. rewrite !map_map. f_equal. Qed.
Lemma short_next : forall xs r, len pre < 4 -> len xs = 4 - len pre -> tx_parse shortst (xs ++ r) =
  Ok (mkTx (s_version v) ins (map parsed_out (s_outs v)) (u32 (2 ^ (8 * len pre) * le_val 256 xs)) 1 DONE (o + 4), len xs, r).
Proof.
  intros xs r L4 LX. pose proof (cut_len pre C) as LC. destruct (xs ++ r) as [|c0 t0] eqn:XR; [apply app_eq_nil in XR as [-> _]; rewrite len_nil in LX; lia|]. unfold tx_parse, shortst at 1. replace (len pre =? 4) with false by (symmetry; apply Z.eqb_neq; lia). t_cbn. pose proof (bw_len v K NI NO) as BL. pose proof (len_nonneg _ wits1). pose proof (len_nonneg _ (flat_map wire_bytes els)).
  destruct K as (_ & _ & FI & FO).
  assert (B7 : 7 <= len bw).
  { unfold before_witness. rewrite !len_app, len_le_bytes, !len_cons, len_nil. unfold wire_list. rewrite !compact_one by (pose proof (len_nonneg _ (s_outs v)); lia).
    rewrite !len_app, !len_cons, !len_nil. pose proof (len_nonneg _ (flat_map wire_in (s_ins v))). pose proof (len_nonneg _ (flat_map wire_out (s_outs v))). lia. }
  assert (SOU : 0 <= zsum (map txout_length (map parsed_out (s_outs v)))) by (rewrite sum_outs by auto; apply len_nonneg).
  assert (DI : Forall (fun e => ti_status e = DONE) ins).
  { apply Forall_app. split; [apply Forall_map'; reflexivity|]. constructor; [reflexivity|constructor]. }
  pose proof ins_done as ID. pose proof ins_completed as IC. pose proof ins_sum as IS.
  set (p := o + len pre). assert (PP : len bw < p) by (unfold p; lia).
  unfold tx_parse_body, shortst. replace (len pre =? 4) with false by (symmetry; apply Z.eqb_neq; lia). fold p. cbn [t_version t_ins t_outs t_lock t_segflag t_status t_parsed]. rewrite read_loop_o_stop by lia. cbn [bind].
  unfold tx_parse_count.
  destruct (Z.eqb_spec p 4); [lia|]. cbn [bind]. destruct (Z.eqb_spec p 5); [lia|]. cbv iota. cbn [andb bind].
  change (0 <? 1) with true. cbn [andb]. cbv iota.
  destruct (Z.eqb_spec p 6); [lia|]. cbn [bind].
  rewrite parse_more_done by exact DI. cbn [bind]. rewrite sum_in1. rewrite Z.add_0_r.
  destruct (Z.eqb_spec p (5 + 2 * 1 + zsum (map txin_length (map pin0 (s_ins v))))); [lia|]. cbn [bind].
  rewrite parse_more_done by (apply Forall_map'; reflexivity). cbn [bind]. rewrite Z.add_0_r.
  rewrite <- BL. destruct (Z.eqb_spec p (len bw)); [lia|]. cbn [andb bind].
  change (0 <? 1) with true. cbn [andb bind]. cbv iota. cbn [bind].
  rewrite parse_more_done by exact ID. cbn [bind]. cbv iota. rewrite Z.add_0_r, IS.
  pose proof (acc32_loop xs o r (len pre) 0 ltac:(lia) ltac:(lia)) as R. change (u32 0) with 0 in R.
  unfold p. replace (o + 4) with (o + len pre + len xs) at 1 by lia. rewrite <- XR, R. cbn [bind].
  replace (o + len pre + len xs) with (o + 4) by lia. rewrite Z.eqb_refl, IC. cbn [andb]. rewrite Z.add_0_l.
  do 3 f_equal. lia.
Qed.
End Long.
Theorem tx_long_cut : forall t v l i els e part more, t_status t = DONE -> tx_ok v -> Forall wit_ok (s_ins v) ->
  len (s_ins v) < 253 -> len (s_outs v) < 253 -> has_witness v = true -> s_ins v = l ++ [i] -> si_wit i = els ++ [e] ->
  wire_tx v = part ++ more -> bytes_ok (wire_tx v) -> unlucky (len e) (len more - 4) ->
  let n := len more - len (wire_bytes e) in
  exists t', feed tx_parse t_status t [part; more] = Ok (t', len part + n, skipn (Z.to_nat n) more) /\ t_status t' = DONE /\ ~ tx_holds t' v.
Proof.
  intros t v l i els e part more S K W NI NO HW EI EE E BW U n.
  assert (N1 : 1 <= len (s_ins v)) by (rewrite EI, len_app, len_cons, len_nil; pose proof (len_nonneg _ l); lia).
  rewrite EI in W. apply Forall_app in W as [W1 W2]. apply Forall_cons_iff in W2 as [(N & B & SZ) _]. rewrite EE in N, B, SZ.
  apply Forall_app in B as [B _]. rewrite flat_map_app, len_app in SZ. cbn [flat_map] in SZ. rewrite app_nil_r, len_wire_bytes in SZ.
  pose proof (len_nonneg _ (compact_size (len e))). pose proof (len_nonneg _ (flat_map wire_bytes els)). pose proof (len_nonneg _ e).
  assert (LE2 : len e < 2^31) by lia. assert (SZ1 : len (flat_map wire_bytes els) < 2^31) by lia.
  assert (EP : (before_witness v ++ flat_map (fun i => wire_witness (si_wit i)) l ++ len (els ++ [e]) :: flat_map wire_bytes els) ++ wire_bytes e ++ le_bytes 4 (s_lock v) = part ++ more).
  { assert (X : flat_map (fun i => wire_witness (si_wit i)) (s_ins v) = flat_map (fun i => wire_witness (si_wit i)) l ++ len (els ++ [e]) :: flat_map wire_bytes els ++ wire_bytes e).
    { rewrite EI, flat_map_app. cbn [flat_map]. rewrite app_nil_r, EE. unfold wire_witness at 2. rewrite compact_one, flat_map_app by (pose proof (len_nonneg _ (els ++ [e])); lia).
      cbn [flat_map app]. rewrite app_nil_r. reflexivity. }
    rewrite <- E. unfold wire_tx, before_witness. rewrite HW. unfold wire_segwit. rewrite X. rewrite <- !app_assoc. cbn [app]. rewrite <- !app_assoc. reflexivity. }
  assert (L4 : len (le_bytes 4 (s_lock v)) = 4) by apply len_le_bytes.
  destruct (cut_of _ e part more _ LE2 EP ltac:(rewrite L4; exact U)) as (pre & PE & C & LK). rewrite L4 in LK. pose proof (cut_len pre C) as LC.
  rewrite <- !app_assoc in PE. cbn [app] in PE.
  rewrite E, PE in BW. apply bytes_ok_app in BW as [BW _].
  assert (LP : len part = len (before_witness v) + len (flat_map (fun i => wire_witness (si_wit i)) l) + 1 + len (flat_map wire_bytes els) + len pre).
  { rewrite PE, !len_app, len_cons, len_app. lia. }
  assert (NK : n = 4 - len pre) by (unfold n; lia).
  pose proof (short_first v K (conj N1 NI) NO l i els e EI W1 N B SZ1 pre C t S BW) as F1. rewrite <- PE, <- LP in F1.
  assert (NH : forall t', t_ins t' = map pin1 l ++ [parsed_in i (short_witness els (len (els ++ [e])) (len pre))] -> ~ tx_holds t' v).
  { intros t' Ht (_ & _ & _ & _ & F & _). rewrite Ht in F. rewrite EI in F. apply Forall2_app_inv_l in F as (a & c & F1' & F2 & Q).
    inversion F2 as [|? y ? c' (_ & _ & _ & _ & _ & _ & _ & _ & H2 & _) F3]; subst. inversion F3; subst. apply app_inj_tail in Q as [_ <-].
    rewrite EE, flat_map_app in H2. cbn [parsed_in ti_wit short_witness wi_arr flat_map] in H2. rewrite app_nil_r in H2.
    apply (f_equal (@len Z)) in H2. rewrite len_app, len_wire_bytes in H2. destruct U as [U _]. lia. }
  destruct (Z.eqb_spec (len pre) 4) as [K4|K4].
  - exists (shortst v l i els e pre). split; [|split; [unfold shortst; cbn [t_status]; rewrite K4; reflexivity|apply NH; reflexivity]].
    cbn [feed]. rewrite F1. cbn [bind]. unfold shortst at 1. cbn [t_status]. rewrite K4. change (4 =? 4) with true. cbv iota. cbn [concat app]. rewrite app_nil_r.
    replace n with 0 by lia. rewrite Z.add_0_r. reflexivity.
  - assert (LM : len more = n + len (wire_bytes e)) by (unfold n; lia). pose proof (len_nonneg _ (wire_bytes e)).
    assert (LX : len (firstn (Z.to_nat n) more) = n) by (unfold len in *; rewrite firstn_length; lia).
    pose proof (short_next v K (conj N1 NI) NO l i els e EI W1 N pre C (firstn (Z.to_nat n) more) (skipn (Z.to_nat n) more) ltac:(lia) ltac:(lia)) as F2.
    rewrite firstn_skipn, LX in F2.
    eexists. split; [|split].
    + cbn [feed]. rewrite F1. cbn [bind]. unfold shortst at 1. cbn [t_status]. replace (len pre =? 4) with false by (symmetry; apply Z.eqb_neq; lia). cbv iota.
      rewrite F2. cbn [bind t_status concat app]. rewrite app_nil_r. reflexivity.
    + reflexivity.
    + apply NH. reflexivity.
Qed.
