(** Transactions with witnesses cut inside the last one. *)
From Coq Require Import Lia.
From Verif Require Import Base.Bytes Base.BytesFacts Model.Conversion Model.Stream Model.Script Model.Tx
  Spec.Codecs Spec.Wire Spec.Pieces Spec.Objects Proof.IntVarint Proof.StreamFacts Proof.Chunks Proof.ScriptFacts Proof.ScriptChunks Proof.WitnessFacts
  Proof.WitnessPieces Proof.Phases Proof.TxIo Proof.ListPhase Proof.TxPhases Proof.TxChunks Proof.TxParse Proof.TxLimits Proof.TxSegwit.
Open Scope Z_scope.

(** The first bytes of a witness. *)
Lemma wit_start : forall w els c more, wi_status w = DONE -> wi_len w = len (wi_arr w) -> len els < 253 -> Forall bytes_ok els ->
  len (flat_map wire_bytes els) < 2^31 -> c <> [] -> more <> [] -> wire_witness els = c ++ more -> ~ unlucky_at els (len c) ->
  exists els1 e u v els2, els = els1 ++ e :: els2 /\ part_ok e u v /\ v <> [] /\ WitnessPieces.pos els1 u = len c /\ v ++ flat_map wire_bytes els2 = more /\
    witness_parse w c = Ok (now els1 e u v els2, len c, []).
Proof.
  intros w els c more D WL N B SZ NC NM E C. pose proof (len_nonneg _ els) as N0. destruct c as [|b c]; [congruence|].
  unfold wire_witness in E. rewrite compact_one in E by lia. cbn [app] in E. assert (EB : b = len els) by congruence. assert (EC : flat_map wire_bytes els = c ++ more) by congruence. clear E. subst b.
  rewrite first_call by (auto; lia). destruct els as [|e els].
  { cbn in EC. destruct c; [|discriminate]. cbn in EC. congruence. }
  assert (V : wire_bytes e <> []).
  { unfold wire_bytes. intros Q. apply app_eq_nil in Q. destruct Q as [Q _]. cbn [flat_map] in SZ. rewrite len_app, len_wire_bytes in SZ. pose proof (len_nonneg _ e). pose proof (len_nonneg _ (compact_size (len e))). pose proof (len_nonneg _ (flat_map wire_bytes els)).
    pose proof (cs_pos (len e) ltac:(lia)) as X. rewrite Q, len_nil in X. lia. }
  set (n := len (e :: els)) in *. rewrite len_cons in C.
  change (mkWitness [] 0 n 0 0 0 0 1 INCOMPLETE 0) with (wst n [] e [] (wire_bytes e) 0).
  change 1 with (1 + len (flat_map wire_bytes []) + len (@nil Z)) at 1.
  destruct (elements_part els n [] e [] (wire_bytes e) c more [] (S (length c)) 0) as [(q & E1 & ->)|(els1' & e' & u' & v' & els2' & E1 & E2 & E3 & E4 & E5 & ->)]; auto; try lia.
  - unfold n. rewrite len_cons, len_nil. lia.
  - split; [reflexivity|left; reflexivity].
  - rewrite app_nil_r. exact EC.
  - exfalso. cbn [flat_map] in EC. rewrite app_assoc, EC, <- app_assoc in E1. apply NM.
    assert (X : len (c ++ more ++ q) = len c) by (f_equal; symmetry; exact E1). rewrite !len_app in X. pose proof (len_nonneg _ q). pose proof (len_nonneg _ more).
    apply length_zero_iff_nil. unfold len in *. lia.
  - exists els1', e', u', v', els2'. cbn [app] in E1. split; [exact E1|]. split; [exact E2|]. split; [exact E3|].
    cbn [flat_map] in E4. rewrite !len_nil in E4. split; [unfold WitnessPieces.pos; rewrite len_cons; lia|].
    cbn [flat_map] in EC. rewrite E5 in EC. apply app_inv_head in EC. split; [exact EC|].
    assert (N2 : n = len els1' + 1 + len els2') by (unfold n; rewrite E1, len_app, len_cons; lia). pose proof (len_nonneg _ els2').
    cbn [bind wi_num wi_cur wi_elen wi_eparsed wi_curLen wi_lenLen wi_status wst]. replace (len els1' =? n) with false by (symmetry; apply Z.eqb_neq; lia). cbv iota.
    unfold now, WitnessPieces.pos. rewrite <- E1. fold n. cbn [wi_arr wi_len wst]. rewrite len_cons. do 3 f_equal. lia.
Qed.

Lemma more_last : forall l1 i w w1 n1 c st1, wi_status w = INCOMPLETE -> c <> [] -> witness_parse w c = Ok (w1, n1, st1) -> wi_status w1 <> FAILED ->
  parse_more txin_parse_wit txin_wit_status (map pin1 l1 ++ [parsed_in i w]) c = Ok (map pin1 l1 ++ [parsed_in i w1], n1, st1, false).
Proof.
  intros l1 i w w1 n1 c st1 I NC P NF. destruct c as [|b c]; [congruence|]. induction l1 as [|j l1 IH]; cbn [map app parse_more].
  - unfold txin_wit_status at 1. cbn [parsed_in ti_wit]. rewrite I. unfold txin_parse_wit at 1. cbn [parsed_in ti_wit ti_hash ti_index ti_script ti_seq ti_status ti_parsed]. rewrite P. cbn [bind].
    unfold txin_wit_status at 1. cbn [ti_wit]. destruct (wi_status w1) eqn:S; [| |congruence]; cbn [pstatus_eqb parse_more bind]; rewrite Z.add_0_r; reflexivity.
  - unfold txin_wit_status at 1. cbn [pin1 parsed_in ti_wit parsed_witness wi_status bind]. unfold txin_wit_status at 1. cbn [pin1 parsed_in ti_wit parsed_witness wi_status pstatus_eqb]. rewrite IH. reflexivity.
Qed.
Lemma more_nil : forall l1 i w, wi_status w <> FAILED ->
  parse_more txin_parse_wit txin_wit_status (map pin1 l1 ++ [parsed_in i w]) [] = Ok (map pin1 l1 ++ [parsed_in i w], 0, [], false).
Proof.
  intros l1 i w NF. induction l1 as [|j l1 IH]; cbn [map app parse_more bind].
  - unfold txin_wit_status at 1. cbn [parsed_in ti_wit]. destruct (wi_status w); [| |congruence]; reflexivity.
  - unfold txin_wit_status at 1. cbn [pin1 parsed_in ti_wit parsed_witness wi_status pstatus_eqb]. rewrite IH. reflexivity.
Qed.

Section Last.
Variable v : s_tx.
Hypothesis K : tx_ok v.
Hypothesis W : Forall wit_ok (s_ins v).
Hypothesis NI : 1 <= len (s_ins v) < 253.
Hypothesis NO : len (s_outs v) < 253.
Hypothesis BB : bytes_ok (before_witness v).
Variables (l1 : list s_txin) (i : s_txin).
Hypothesis EI : s_ins v = l1 ++ [i].
Notation bw := (before_witness v).
Notation wits1 := (flat_map (fun i => wire_witness (si_wit i)) l1).
Notation wits := (flat_map (fun i => wire_witness (si_wit i)) (s_ins v)).
Notation off3 := (len bw + len wits).
Notation start := (len bw + len wits1).
Notation rd := (read_loop_o (off3 + 4) off3 (acc32 off3) 0).

Lemma Wi : wit_ok i /\ Forall wit_ok l1.
Proof. rewrite EI in W. apply Forall_app in W as [W1 W2]. inversion W2; subst. auto. Qed.
Lemma wits_split : wits = wits1 ++ wire_witness (si_wit i).
Proof. rewrite EI, flat_map_app. cbn [flat_map]. rewrite app_nil_r. reflexivity. Qed.
Definition witst (w : witness) : tx :=
  mkTx (s_version v) (map pin1 l1 ++ [parsed_in i w]) (map parsed_out (s_outs v)) 0 1 INCOMPLETE (start + wi_parsed w).
Lemma not_completed : forall w, wi_status w = INCOMPLETE -> tx_completed 1 (map pin1 l1 ++ [parsed_in i w]) (map parsed_out (s_outs v)) = false.
Proof.
  intros w I. unfold tx_completed. rewrite forallb_app. cbn [forallb]. unfold txin_wit_status. cbn [parsed_in ti_wit ti_status]. rewrite I.
  cbn [pstatus_eqb andb]. change (0 <? 1) with true. cbv iota. cbn [andb]. rewrite andb_false_r. reflexivity.
Qed.
Lemma sum_in1 : forall w, zsum (map txin_length (map pin1 l1 ++ [parsed_in i w])) = zsum (map txin_length (map pin0 (s_ins v))).
Proof.
  intros w. rewrite EI, !map_app. cbn [map]. f_equal. rewrite !map_map. f_equal.
Qed.
(* a piece that ends inside the last witness, after one in front of the witnesses *)
Lemma mid_inside : forall p s q c more, after p s -> bw = p ++ q -> q <> [] -> bytes_ok wits -> c <> [] -> more <> [] ->
  wire_witness (si_wit i) = c ++ more -> ~ unlucky_at (si_wit i) (len c) ->
  exists els1 e u v0 els2, si_wit i = els1 ++ e :: els2 /\ part_ok e u v0 /\ v0 <> [] /\ WitnessPieces.pos els1 u = len c /\ v0 ++ flat_map wire_bytes els2 = more /\
    tx_parse_body s (q ++ wits1 ++ c) = Ok (witst (now els1 e u v0 els2), start + len c - t_parsed s, []).
Proof.
  intros p s q c more A E NQ BW NC NM EW C. destruct Wi as [(N & B & SZ) W1].
  destruct (wit_start witness_new (si_wit i) c more eq_refl eq_refl N B SZ NC NM EW C) as (els1 & e & u & v0 & els2 & E1 & E2 & E3 & E4 & E5 & P).
  exists els1, e, u, v0, els2. repeat (split; [assumption|]).
  pose proof BB as BB'. rewrite E in BB'. apply bytes_ok_app in BB' as [BP BQ].
  assert (BY : bytes_ok (wits1 ++ c)).
  { rewrite wits_split, EW in BW. apply bytes_ok_app in BW as [X1 X2]. apply bytes_ok_app in X2 as [X2 _]. apply bytes_ok_app; auto. }
  assert (BZ : bytes_ok (q ++ wits1 ++ c)) by (apply bytes_ok_app; auto).
  pose proof (F7_wire v (wits1 ++ c) K BB BY NI NO) as F. rewrite E, <- app_assoc in F.
  assert (NZ : q ++ wits1 ++ c <> []) by (destruct q; [congruence|discriminate]).
  pose proof (after_app _ _ _ _ _ A BP BZ NZ F eq_refl) as F1. destruct A as (A2 & A3 & _).
  rewrite (M_fwd 1 SG1 _ _ _ _ A2 A3 BZ F1 eq_refl). unfold tail, s3v. t_cbn. rewrite <- (bw_len v K NI NO), Z.eqb_refl.
  change (0 <? 1) with true. cbn [andb]. rewrite EI at 1. rewrite map_app, parse_all_app, parse_wits by auto. cbn [bind map parse_all].
  unfold txin_parse_wit at 1. cbn [pin0 parsed_in ti_wit ti_hash ti_index ti_script ti_seq ti_status ti_parsed]. rewrite P. cbn [bind].
  change (mkTxin (si_prev i) (si_vout i) (parsed_script (si_sig i)) (si_seq i) (now els1 e u v0 els2) DONE (len (wire_in i))) with (parsed_in i (now els1 e u v0 els2)).
  rewrite more_nil by discriminate. cbn [bind]. cbv iota. cbn [read_loop_o bind]. rewrite not_completed by reflexivity. rewrite andb_false_r.
  unfold witst. cbn [now wst wi_parsed]. rewrite E4. f_equal. f_equal. f_equal; [f_equal|]; lia.
Qed.
Lemma next_tx : forall w w1 n1 c st1, wi_status w = INCOMPLETE -> 0 < wi_parsed w -> c <> [] -> witness_parse w c = Ok (w1, n1, st1) -> wi_status w1 <> FAILED ->
  tx_parse (witst w) c =
    let o := len bw + zsum (map (fun i => witness_length (ti_wit i)) (map pin1 l1 ++ [parsed_in i w1])) in
    let! r8 := read_loop_o (o + 4) (start + wi_parsed w + n1) (acc32 o) 0 st1 in
    let '(lock, pos8, st8) := r8 in
    Ok (mkTx (s_version v) (map pin1 l1 ++ [parsed_in i w1]) (map parsed_out (s_outs v)) lock 1
         (if (pos8 =? o + 4) && tx_completed 1 (map pin1 l1 ++ [parsed_in i w1]) (map parsed_out (s_outs v)) then DONE else INCOMPLETE) pos8,
        pos8 - (start + wi_parsed w), st8).
Proof.
  intros w w1 n1 c st1 I WP NC P NF.
  unfold tx_parse, witst at 1. t_cbn. pose proof (bw_len v K NI NO) as BL. pose proof (len_nonneg _ wits1).
  destruct K as (_ & _ & FI & FO).
  assert (B7 : 7 <= len bw).
  { unfold before_witness. rewrite !len_app, len_le_bytes, !len_cons, len_nil. unfold wire_list. rewrite !compact_one by (pose proof (len_nonneg _ (s_outs v)); lia).
    rewrite !len_app, !len_cons, !len_nil. pose proof (len_nonneg _ (flat_map wire_in (s_ins v))). pose proof (len_nonneg _ (flat_map wire_out (s_outs v))). lia. }
  assert (SOU : 0 <= zsum (map txout_length (map parsed_out (s_outs v)))) by (rewrite sum_outs by auto; apply len_nonneg).
  assert (DI : Forall (fun e => ti_status e = DONE) (map pin1 l1 ++ [parsed_in i w])).
  { apply Forall_app. split; [apply Forall_map'; reflexivity|]. constructor; [reflexivity|constructor]. }
  set (p := start + wi_parsed w). assert (PP : len bw < p) by (unfold p; lia).
  unfold tx_parse_body, witst. fold p. cbn [t_version t_ins t_outs t_lock t_segflag t_status t_parsed]. rewrite read_loop_o_stop by lia. cbn [bind].
  unfold tx_parse_count.
  destruct c as [|c0 c]; [congruence|].
  destruct (Z.eqb_spec p 4); [lia|]. cbn [bind]. destruct (Z.eqb_spec p 5); [lia|]. cbv iota. cbn [andb bind].
  change (0 <? 1) with true. cbn [andb]. cbv iota.
  destruct (Z.eqb_spec p 6); [lia|]. cbn [bind].
  rewrite parse_more_done by exact DI. cbn [bind]. rewrite sum_in1. rewrite Z.add_0_r.
  destruct (Z.eqb_spec p (5 + 2 * 1 + zsum (map txin_length (map pin0 (s_ins v))))); [lia|]. cbn [bind].
  rewrite parse_more_done by (apply Forall_map'; reflexivity). cbn [bind]. rewrite Z.add_0_r.
  rewrite <- BL. destruct (Z.eqb_spec p (len bw)); [lia|]. cbn [andb bind].
  change (0 <? 1) with true. cbn [andb bind]. cbv iota. cbn [bind].
  rewrite (more_last l1 i w w1 n1 (c0 :: c) st1) by (auto; discriminate). cbn [bind]. cbv iota. reflexivity.
Qed.
Lemma feed_wit : forall chunks els1 e u v0 els2, si_wit i = els1 ++ e :: els2 -> part_ok e u v0 -> v0 <> [] ->
  concat chunks = (v0 ++ flat_map wire_bytes els2) ++ le_bytes 4 (s_lock v) -> Forall (fun c => c <> []) chunks ->
  (forall a b, chunks = a ++ b -> ~ unlucky_at (si_wit i) (WitnessPieces.pos els1 u + len (concat a))) ->
  feed tx_parse t_status (witst (now els1 e u v0 els2)) chunks = Ok (lockst v (le_bytes 4 (s_lock v)) (s_lock v), len (concat chunks), []).
Proof.
  induction chunks as [|c chunks IH]; intros els1 e u v0 els2 ES P V E F C.
  { cbn in E. destruct v0; [congruence|discriminate]. }
  apply Forall_cons_iff in F as [NC F]. destruct Wi as [(N & B & SZ) W1]. cbn [concat] in E.
  assert (BT : Forall bytes_ok (e :: els2)) by (rewrite ES in B; apply Forall_app in B; apply B).
  assert (C1 : ~ unlucky_at (els1 ++ e :: els2) (WitnessPieces.pos els1 u + len c)).
  { specialize (C [c] chunks eq_refl). cbn [concat] in C. rewrite app_nil_r, ES in C. exact C. }
  assert (N' : len (els1 ++ e :: els2) < 253) by (rewrite <- ES; exact N).
  assert (SZ' : len (flat_map wire_bytes (els1 ++ e :: els2)) < 2^31) by (rewrite <- ES; exact SZ).
  assert (PP : 0 < wi_parsed (now els1 e u v0 els2)).
  { cbn [now wst wi_parsed]. unfold WitnessPieces.pos. pose proof (len_nonneg _ u). pose proof (len_nonneg _ (flat_map wire_bytes els1)). lia. }
  assert (PL : WitnessPieces.pos els1 u + len v0 + len (flat_map wire_bytes els2) = len (wire_witness (si_wit i))).
  { rewrite (part_len els1 e u v0 els2 P), ES. unfold wire_witness. rewrite compact_one, len_app by (pose proof (len_nonneg _ (els1 ++ e :: els2)); lia). reflexivity. }
  cbn [feed].
  destruct (next_call els1 e u v0 els2 c (concat chunks) (le_bytes 4 (s_lock v)) N' P V BT SZ' (eq_sym E) C1) as [(x & E1 & Q)|(els1' & e' & u' & v' & els2' & E1 & E2 & E3 & E4 & E5 & Q)].
  - (* the end of the witness *)
    rewrite <- ES in Q. rewrite (next_tx (now els1 e u v0 els2) _ _ _ _ (eq_refl : wi_status (now els1 e u v0 els2) = INCOMPLETE) PP NC Q ltac:(discriminate)).
    change (map pin1 l1 ++ [parsed_in i (parsed_witness (si_wit i))]) with (map pin1 l1 ++ map pin1 [i]). rewrite <- map_app, <- EI, sum_wits by auto.
    cbn [now wst wi_parsed]. cbv zeta.
    assert (EX : le_bytes 4 (s_lock v) = x ++ concat chunks).
    { rewrite E1, <- !app_assoc in E. do 2 apply app_inv_head in E. symmetry. exact E. }
    assert (OE : start + WitnessPieces.pos els1 u + (len v0 + len (flat_map wire_bytes els2)) = off3) by (rewrite wits_split, len_app; lia). rewrite OE.
    destruct (rd_prefix v K x (concat chunks) EX) as [a R]. rewrite R. cbn [bind]. rewrite (completed1 v), andb_true_r.
    assert (LC : off3 + len x - (start + WitnessPieces.pos els1 u) = len c) by (rewrite E1, !len_app; lia). rewrite LC.
    assert (LS : mkTx (s_version v) (map pin1 (s_ins v)) (map parsed_out (s_outs v)) a 1 (if off3 + len x =? off3 + 4 then DONE else INCOMPLETE) (off3 + len x) = lockst v x a).
    { unfold lockst. f_equal. destruct (Z.eqb_spec (len x) 4), (Z.eqb_spec (off3 + len x) (off3 + 4)); auto; lia. }
    rewrite LS.
    assert (N4 : len x + len (concat chunks) = 4) by (rewrite <- len_app, <- EX; apply len_le_bytes).
    destruct chunks as [|c2 chunks].
    + cbn [concat] in *. rewrite app_nil_r in EX. rewrite len_nil in N4.
      assert (AE : a = s_lock v).
      { destruct K as (_ & L & _). pose proof (acc32_le4 off3 (s_lock v) [] L) as R2. rewrite app_nil_r, EX, R in R2. congruence. }
      assert (ST : t_status (lockst v x a) = DONE).
      { cbn [lockst t_status]. destruct (Z.eqb_spec (len x) 4); [reflexivity|lia]. }
      rewrite ST, AE, EX, !app_nil_r. reflexivity.
    + assert (L2 : 0 < len (concat (c2 :: chunks))).
      { inversion F as [|? ? X _]; subst. cbn [concat]. rewrite len_app. pose proof (len_nonneg _ (concat chunks)).
        destruct c2; [congruence|]. rewrite len_cons. pose proof (len_nonneg _ c2). lia. }
      assert (ST : t_status (lockst v x a) = INCOMPLETE).
      { cbn [lockst t_status]. destruct (Z.eqb_spec (len x) 4); [lia|reflexivity]. }
      rewrite ST. rewrite (feed_lock v K W NI NO (c2 :: chunks) x a R EX) by (auto; discriminate). cbn [bind concat app]. rewrite !len_app. reflexivity.
  - (* still inside *)
    rewrite (next_tx (now els1 e u v0 els2) _ _ _ _ (eq_refl : wi_status (now els1 e u v0 els2) = INCOMPLETE) PP NC Q ltac:(discriminate)). cbn [read_loop_o bind]. cbv zeta. rewrite not_completed by reflexivity. rewrite andb_false_r.
    cbn [now wst wi_parsed].
    assert (LS : mkTx (s_version v) (map pin1 l1 ++ [parsed_in i (now els1' e' u' v' els2')]) (map parsed_out (s_outs v)) 0 1 INCOMPLETE (start + WitnessPieces.pos els1 u + len c) = witst (now els1' e' u' v' els2')).
    { unfold witst. cbn [now wst wi_parsed]. rewrite <- E4. f_equal. lia. }
    cbn [now wst] in LS. rewrite LS. cbn [witst t_status]. cbn [bind]. fold (witst (now els1' e' u' v' els2')).
    rewrite (IH els1' e' u' v' els2'); auto.
    + cbn [bind concat app]. rewrite len_app. do 2 f_equal. f_equal. lia.
    + rewrite ES. exact E1.
    + rewrite E5, <- !app_assoc in E. apply app_inv_head in E. rewrite <- app_assoc. exact E.
    + intros a b EC. rewrite <- E4. specialize (C (c :: a) b ltac:(rewrite EC; reflexivity)). cbn [concat] in C. rewrite len_app in C.
      replace (WitnessPieces.pos els1 u + len c + len (concat a)) with (WitnessPieces.pos els1 u + (len c + len (concat a))) by lia. exact C.
Qed.
Lemma feed_inside : forall before p s t q c aft more, after p s -> t_status t <> FAILED -> (forall c, tx_parse t c = tx_parse_body s c) ->
  bw = p ++ concat before ++ q -> q <> [] -> (forall a b, before = a ++ b -> a <> [] -> cut_ok v (concat b ++ q)) -> wire_witness (si_wit i) = c ++ more -> c <> [] -> more <> [] -> concat aft = more ++ le_bytes 4 (s_lock v) ->
  bytes_ok wits -> Forall (fun c => c <> []) before -> Forall (fun c => c <> []) aft ->
  (forall a b, aft = a ++ b -> ~ unlucky_at (si_wit i) (len c + len (concat a))) ->
  feed tx_parse t_status t (before ++ (q ++ wits1 ++ c) :: aft) = Ok (lockst v (le_bytes 4 (s_lock v)) (s_lock v), off3 + 4 - t_parsed s, []).
Proof.
  induction before as [|c0 b IH]; intros p s t q c aft more A NF T E NQ CC EW NC NM EA BW FB FA C.
  - cbn [concat app feed] in *. rewrite T.
    assert (C0 : ~ unlucky_at (si_wit i) (len c)) by (specialize (C [] aft eq_refl); cbn [concat] in C; rewrite len_nil, Z.add_0_r in C; exact C).
    destruct (mid_inside p s q c more A E NQ BW NC NM EW C0) as (els1 & e & u & v0 & els2 & E1 & E2 & E3 & E4 & E5 & M). rewrite M. cbn [bind].
    change (t_status (witst (now els1 e u v0 els2))) with INCOMPLETE. cbv iota.
    rewrite (feed_wit aft els1 e u v0 els2); auto.
    + cbn [bind app]. f_equal. f_equal. f_equal. rewrite EA, wits_split, EW, !len_app, len_le_bytes. change (Z.of_nat 4) with 4. lia.
    + rewrite EA, E5. reflexivity.
    + intros a b' EE. rewrite E4. apply (C a b' EE).
  - inversion FB as [|? ? N0 FB']; subst. cbn [concat app feed] in *. rewrite <- app_assoc in E. rewrite T.
    assert (NQ2 : concat b ++ q <> []) by (destruct q; [congruence|]; intros X; apply app_eq_nil in X as [_ X]; discriminate).
    destruct (one_before v K NI NO BB p s c0 (concat b ++ q) A E N0 NQ2 (CC [c0] b eq_refl ltac:(discriminate))) as (s1 & A1 & P1). rewrite P1. cbn [bind].
    pose proof A1 as (_ & S1 & _). rewrite S1.
    rewrite (IH (p ++ c0) s1 s1 q c aft more); auto.
    + cbn [bind]. f_equal. f_equal. f_equal. lia.
    + congruence.
    + intros c'. unfold tx_parse. rewrite S1. reflexivity.
    + rewrite <- app_assoc. exact E.
    + intros a b' -> NA. apply (CC (c0 :: a) b'); [reflexivity|discriminate].
Qed.
End Last.

Theorem last_witness_chunks : forall t v l1 i before mid aft, t_status t = DONE -> tx_ok v -> Forall wit_ok (s_ins v) ->
  1 <= len (s_ins v) < 253 -> len (s_outs v) < 253 -> has_witness v = true ->
  (forall os o a b, s_outs v = os ++ [o] -> before = a ++ b ->
     ~ unlucky (len (so_script o)) (len (before_witness v) - len (concat a))) ->
  Forall (fun c => c <> [] /\ bytes_ok c) (before ++ mid :: aft) -> concat (before ++ mid :: aft) = wire_tx v ->
  len (concat before) < len (before_witness v) -> s_ins v = l1 ++ [i] ->
  len (concat aft) < len (wire_witness (si_wit i)) + 4 ->
  (forall a b, aft = a ++ b -> ~ unlucky_at (si_wit i) (len (wire_witness (si_wit i)) + 4 - len (concat b))) ->
  exists t', feed tx_parse t_status t (before ++ mid :: aft) = Ok (t', len (wire_tx v), []) /\ t_status t' = DONE /\ tx_holds t' v.
Proof.
  intros t v l1 i before mid aft S K W NI NO HW SO F E LB EI LA C.
  destruct (Z.le_gt_cases (len (concat aft)) 4) as [L4'|G4]; [exact (segwit_chunks t v before mid aft S K W NI NO HW SO F E LB L4')|].
  exists (parsed_tx v). split; [|split; [reflexivity|apply parsed_tx_holds; auto]].
  assert (WE : wire_tx v = before_witness v ++ flat_map (fun i => wire_witness (si_wit i)) (s_ins v) ++ le_bytes 4 (s_lock v)).
  { unfold wire_tx, before_witness. rewrite HW. unfold wire_segwit. rewrite <- !app_assoc. reflexivity. }
  assert (BE : bytes_ok (wire_tx v)) by (rewrite <- E; apply concat_bytes; auto).
  rewrite WE in BE. apply bytes_ok_app in BE as [BB BE]. apply bytes_ok_app in BE as [BW BL].
  rewrite concat_app in E. cbn [concat] in E. rewrite WE in E.
  destruct (split_left _ _ _ _ E ltac:(lia)) as (q & E1 & E2).
  assert (NQ : q <> []) by (intros ->; rewrite app_nil_r in E1; rewrite E1 in LB; lia).
  pose proof (wits_split v l1 i EI) as WS.
  assert (L4 : len (le_bytes 4 (s_lock v)) = 4) by apply len_le_bytes.
  assert (E3 : (q ++ flat_map (fun i => wire_witness (si_wit i)) l1) ++ wire_witness (si_wit i) ++ le_bytes 4 (s_lock v) = mid ++ concat aft).
  { rewrite WS in E2. rewrite E2, <- !app_assoc. reflexivity. }
  assert (LL : len (q ++ flat_map (fun i => wire_witness (si_wit i)) l1) + (len (wire_witness (si_wit i)) + 4) = len mid + len (concat aft)).
  { rewrite <- L4, <- (len_app _ (wire_witness (si_wit i))), <- len_app, E3, len_app. reflexivity. }
  destruct (split_left _ _ _ _ E3 ltac:(lia)) as (c & E4 & E5).
  assert (LM : len mid = len (q ++ flat_map (fun i => wire_witness (si_wit i)) l1) + len c) by (rewrite E4, len_app; reflexivity).
  destruct (split_left c (concat aft) (wire_witness (si_wit i)) (le_bytes 4 (s_lock v))) as (more & E6 & E7); [symmetry; exact E5|lia|].
  assert (NM : more <> []) by (intros ->; rewrite app_nil_r in E6; rewrite E6 in LL; lia).
  assert (NC : c <> []) by (intros ->; rewrite len_nil in LM; lia).
  apply Forall_app in F as [F1 F2]. inversion F2 as [|? ? _ F3]; subst mid. rewrite <- app_assoc.
  rewrite (feed_inside v K W NI NO BB l1 i EI before [] s0 t q c aft more); auto.
  - unfold parsed_tx, lockst. rewrite HW, L4. cbn [b2z s0 t_parsed]. rewrite WE, !len_app, L4. change (4 =? 4) with true. cbv iota.
    replace (len (before_witness v) + len (flat_map (fun i => wire_witness (si_wit i)) (s_ins v)) + 4 - 0) with (len (before_witness v) + (len (flat_map (fun i => wire_witness (si_wit i)) (s_ins v)) + 4)) by lia.
    replace (len (before_witness v) + len (flat_map (fun i => wire_witness (si_wit i)) (s_ins v)) + 4) with (len (before_witness v) + (len (flat_map (fun i => wire_witness (si_wit i)) (s_ins v)) + 4)) by lia.
    reflexivity.
  - apply after_nil.
  - congruence.
  - intros c'. unfold tx_parse. rewrite S. reflexivity.
  - intros a b -> _ os o EO. specialize (SO os o a b EO eq_refl). rewrite E1, concat_app, !len_app in SO. rewrite len_app.
    replace (len (concat a) + len (concat b) + len q - len (concat a)) with (len (concat b) + len q) in SO by lia. exact SO.
  - eapply Forall_impl; [|exact F1]. intros a [Q _]. exact Q.
  - eapply Forall_impl; [|exact F3]. intros a [Q _]. exact Q.
  - intros a b EE. specialize (C a b EE). assert (X : len (concat aft) = len (concat a) + len (concat b)) by (rewrite EE, concat_app, len_app; reflexivity).
    replace (len c + len (concat a)) with (len (wire_witness (si_wit i)) + 4 - len (concat b)) by lia. exact C.
Qed.

(** ** Cuts inside an earlier witness *)
Lemma more_failed_inside : forall l1 i w j l2, wi_status w = INCOMPLETE -> exists l, parse_more txin_parse_wit txin_wit_status
    (map pin1 l1 ++ parsed_in i w :: map (fun i => parsed_in i (mkWitness [] 0 0 0 0 0 0 0 FAILED 0)) (j :: l2)) [] = Ok (l, 0, [], true).
Proof.
  induction l1 as [|e l1 IH]; intros i w j l2 I; cbn [map app parse_more bind].
  - unfold txin_wit_status at 1. cbn [parsed_in ti_wit]. rewrite I. eexists. reflexivity.
  - destruct (IH i w j l2 I) as [l E]. cbn [map app] in E. rewrite E. cbn [bind]. eexists. reflexivity.
Qed.
Theorem wit_inside_cut : forall t v l1 i j l2 c more, t_status t = DONE -> tx_ok v -> Forall wit_ok (s_ins v) -> s_ins v = l1 ++ i :: j :: l2 ->
  len (s_ins v) < 253 -> len (s_outs v) < 253 -> wire_witness (si_wit i) = c ++ more -> c <> [] -> more <> [] -> ~ unlucky_at (si_wit i) (len c) ->
  let part := before_witness v ++ flat_map (fun i => wire_witness (si_wit i)) l1 ++ c in bytes_ok part ->
  exists t', tx_parse t part = Ok (t', len part, []) /\ t_status t' = FAILED.
Proof.
  intros t v l1 i j l2 c more S K W EI NI NO EW NC NM C part B. subst part.
  assert (N1 : 1 <= len (s_ins v)).
  { rewrite EI, len_app, len_cons. pose proof (len_nonneg _ l1). pose proof (len_nonneg _ (j :: l2)). lia. }
  rewrite (parse_to_tail t v _ S K B (conj N1 NI) NO). unfold tail, s3v. t_cbn. rewrite <- (bw_len v K (conj N1 NI) NO), Z.eqb_refl.
  change (0 <? 1) with true. cbn [andb]. rewrite EI. rewrite map_app, parse_all_app.
  rewrite EI in W. apply Forall_app in W as [W1 W2]. apply Forall_cons_iff in W2 as [(N & BW & SZ) W2].
  rewrite parse_wits by auto. cbn [bind]. change (map pin0 (i :: j :: l2)) with (pin0 i :: map pin0 (j :: l2)).
  remember (j :: l2) as l eqn:EL. cbn [parse_all].
  destruct (wit_start witness_new (si_wit i) c more eq_refl eq_refl N BW SZ NC NM EW C) as (els1 & e & u & v0 & els2 & E1 & E2 & E3 & E4 & E5 & P).
  unfold txin_parse_wit at 1. cbn [pin0 parsed_in ti_wit ti_hash ti_index ti_script ti_seq ti_status ti_parsed]. rewrite P. cbn [bind].
  change (mkTxin (si_prev i) (si_vout i) (parsed_script (si_sig i)) (si_seq i) (now els1 e u v0 els2) DONE (len (wire_in i))) with (parsed_in i (now els1 e u v0 els2)).
  rewrite wits_empty. cbn [bind]. cbv iota. subst l.
  destruct (more_failed_inside l1 i (now els1 e u v0 els2) j l2 eq_refl) as [l M]. rewrite M. cbn [bind]. cbv iota.
  rewrite !len_app.
  match goal with |- exists _, Ok (?x, ?a, _) = Ok (_, ?b, _) /\ _ => exists x; replace a with b by lia end. split; reflexivity.
Qed.
