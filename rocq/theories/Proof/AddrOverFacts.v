(** Exactly which texts overrun a buffer when read as an address (C29). *)
From Coq Require Import Lia.
From Verif Require Import Base.Bytes Base.BytesFacts Model.Conversion Model.Script Model.Bech32 Model.Networks Model.Address
  Spec.Codecs Spec.Bech32 Spec.Address Spec.AddrOver Proof.BechFacts Proof.BechAddr Proof.BechSegwit Proof.AddrFacts Proof.AddrProps.
Open Scope Z_scope.

Lemma dec_high_cut : forall pre rest hp buf c lo up n, all_printable pre = false -> len pre <= len buf + 1 -> (length pre <= n)%nat ->
  dec_high n (len hp) (pre ++ rest) (hp ++ buf) c lo up = Ok None.
Proof.
  induction pre as [|ch pre IH]; intros rest hp buf c lo up n HP HL HN; [discriminate|]. cbn [all_printable forallb] in HP. rewrite len_cons in HL.
  destruct n as [|n]; [cbn [length] in HN; lia|]. cbn [length] in HN.
  cbn [dec_high app]. destruct (printable ch); cbn [negb andb] in *; [|reflexivity].
  destruct buf as [|x buf].
  { rewrite len_nil in HL. destruct pre; [discriminate|]. rewrite len_cons in HL. pose proof (len_nonneg _ pre). lia. }
  rewrite len_cons in HL. rewrite aset_mid by auto. cbn [bind].
  replace (hp ++ (if upper ch then ch + 32 else ch) :: buf) with ((hp ++ [low1 ch]) ++ buf) by (rewrite <- app_assoc; reflexivity).
  replace (len hp + 1) with (len (hp ++ [low1 ch])) by (rewrite len_app, len_cons, len_nil; lia).
  apply IH; auto; lia.
Qed.
Lemma dec_data_cut : forall s rest dp buf c lo up, all_symbols s = false -> len s <= len buf + 1 ->
  dec_data (len dp) (s ++ rest) (dp ++ buf) c lo up = Ok None.
Proof.
  induction s as [|ch s IH]; intros rest dp buf c lo up HS HL; [discriminate|]. cbn [all_symbols forallb] in HS. rewrite len_cons in HL.
  cbn [app dec_data]. fold (symbol_value ch). destruct (symbol_value ch =? -1); [reflexivity|]. cbn [negb andb] in HS.
  destruct buf as [|x buf].
  { rewrite len_nil in HL. destruct s; [discriminate|]. rewrite len_cons in HL. pose proof (len_nonneg _ s). lia. }
  rewrite len_cons in HL. destruct (6 <=? len (s ++ rest)) eqn:E6.
  - rewrite aset_mid by auto. cbn [bind].
    replace (dp ++ symbol_value ch :: buf) with ((dp ++ [symbol_value ch]) ++ buf) by (rewrite <- app_assoc; reflexivity).
    replace (len dp + 1) with (len (dp ++ [symbol_value ch])) by (rewrite len_app, len_cons, len_nil; lia).
    apply IH; auto; lia.
  - cbn [bind]. replace (dp ++ x :: buf) with ((dp ++ [x]) ++ buf) by (rewrite <- app_assoc; reflexivity).
    replace (len dp + 1) with (len (dp ++ [x])) by (rewrite len_app, len_cons, len_nil; lia).
    apply IH; auto; lia.
Qed.
Lemma dec_data_cut_over : forall s rest dp buf c lo up, all_symbols s = true -> len buf < len s -> 6 <= len rest ->
  dec_data (len dp) (s ++ rest) (dp ++ buf) c lo up = UB.
Proof.
  induction s as [|ch s IH]; intros rest dp buf c lo up HS HL HR; [rewrite len_nil in HL; pose proof (len_nonneg _ buf); lia|].
  cbn [all_symbols forallb] in HS. apply andb_prop in HS as [S1 S2]. apply negb_true_iff in S1. rewrite len_cons in HL.
  cbn [app dec_data]. fold (symbol_value ch). rewrite S1. pose proof (len_nonneg _ s).
  replace (6 <=? len (s ++ rest)) with true by (symmetry; apply Z.leb_le; rewrite len_app; lia). destruct buf as [|x buf].
  - rewrite app_nil_r, aset_out by lia. reflexivity.
  - rewrite len_cons in HL. rewrite aset_mid by auto. cbn [bind].
    replace (dp ++ symbol_value ch :: buf) with ((dp ++ [symbol_value ch]) ++ buf) by (rewrite <- app_assoc; reflexivity).
    replace (len dp + 1) with (len (dp ++ [symbol_value ch])) by (rewrite len_app, len_cons, len_nil; lia).
    apply IH; auto; lia.
Qed.

(** Characters. *)
Lemma visible_all : forall l, Forall visible l <-> all_printable l = true.
Proof.
  intros l. unfold all_printable. rewrite forallb_forall, Forall_forall. unfold visible, printable. split; intros H x I; specialize (H x I).
  - apply andb_true_intro. split; apply Z.leb_le; lia.
  - apply andb_prop in H as [H1 H2]. apply Z.leb_le in H1, H2. lia.
Qed.
Lemma bech_all : forall l, Forall bech_char l <-> all_symbols l = true.
Proof.
  intros l. unfold all_symbols. rewrite forallb_forall, Forall_forall. split; intros H x I; specialize (H x I).
  - destruct H as (v & V & E). assert (L : low1 x = symbol v).
    { unfold low1. destruct E as [->|[-> E]]; [destruct (symbol_range v V) as (_ & _ & ->)|]; auto. }
    rewrite (symbol_value_of v x V L). unfold value_ok in V. destruct (Z.eqb_spec v (-1)); [lia|reflexivity].
  - apply negb_true_iff in H. apply Z.eqb_neq in H. destruct (symbol_value_spec x) as [|[V E]]; [contradiction|]. exists (symbol_value x). split; [exact V|].
    unfold low1 in E. destruct (is_upper x) eqn:U; [right; auto|left; auto].
Qed.

(** * Decoding *)
Lemma to_app : forall A (n : nat) (l : list A), l = firstn n l ++ skipn n l. Proof. intros. symmetry. apply firstn_skipn. Qed.
Lemma none_spec : forall s, ~ In 49 s -> 85 <= len s <= 1000 ->
  (all_printable (firstn 85 s) = true -> bech32_decode (zeros 84) (zeros 84) s = UB) /\
  (all_printable (firstn 85 s) = false -> exists h d l, bech32_decode (zeros 84) (zeros 84) s = Ok (0, h, d, l)).
Proof.
  intros s N L. unfold bech32_decode. cbv zeta. rewrite data_part_none by auto. unfold MAX_BECH32_SIZE.
  replace (len s <? 8) with false by (symmetry; apply Z.ltb_ge; lia). rewrite Z.gtb_ltb. replace (1000 <? len s) with false by (symmetry; apply Z.ltb_ge; lia). cbn [orb].
  replace (len s - (1 + len s)) with (-1) by lia. change (u64 (-1)) with 18446744073709551615. change (18446744073709551615 <? 1) with false. cbn [orb].
  replace (len s <? 6) with false by (symmetry; apply Z.ltb_ge; lia).
  assert (L85 : length (firstn 85 s) = 85%nat) by (rewrite firstn_length; unfold len in L; lia).
  assert (E : s ++ [0] = firstn 85 s ++ (skipn 85 s ++ [0])) by (rewrite app_assoc, firstn_skipn; auto).
  assert (G : (length (firstn 85 s) <= Z.to_nat (Z.min 18446744073709551615 (len s + 1)))%nat) by (rewrite L85, Z.min_r by lia; lia).
  rewrite E. split; intros P.
  - pose proof (dec_high_over (firstn 85 s) (skipn 85 s ++ [0]) [] (zeros 84) 1 false false (Z.to_nat (Z.min 18446744073709551615 (len s + 1))) P) as D. cbn [app] in D. change (len (@nil Z)) with 0 in D.
    rewrite D; auto. rewrite len_zeros. unfold len. rewrite L85. lia.
  - pose proof (dec_high_cut (firstn 85 s) (skipn 85 s ++ [0]) [] (zeros 84) 1 false false (Z.to_nat (Z.min 18446744073709551615 (len s + 1))) P) as D. cbn [app] in D. change (len (@nil Z)) with 0 in D.
    rewrite D; auto; [cbn [bind]; eauto|]. rewrite len_zeros. unfold len. rewrite L85. lia.
Qed.
Section Split.
Variables pre suf : list Z.
Hypothesis N : ~ In 49 suf.
Hypothesis L6 : 6 <= len suf.
Hypothesis L1 : 1 <= len pre.
Hypothesis LN : len pre + len suf < 1000.
Lemma decode_open : bech32_decode (zeros 84) (zeros 84) (pre ++ 49 :: suf) =
  let! r := dec_high (length pre) 0 (pre ++ [49] ++ suf ++ [0]) (zeros 84) 1 false false in
  match r with
  | None => Ok (0, zeros 84, zeros 84, len suf - 6)
  | Some (chk, lo, up, hrp1) =>
      let! hrp2 := aset hrp1 (len pre) 0 in
      let! r2 := dec_data 0 suf (zeros 84) (enc_low (polymod_step chk) pre) lo up in
      match r2 with
      | None => Ok (0, hrp2, zeros 84, len suf - 6)
      | Some (chk3, lo2, up2, data') =>
          if lo2 && up2 then Ok (0, hrp2, data', len suf - 6) else Ok ((if chk3 =? 1 then 1 else 0), hrp2, data', len suf - 6)
      end
  end.
Proof.
  unfold bech32_decode. cbv zeta. rewrite data_part_split by auto. rewrite len_app, len_cons. unfold MAX_BECH32_SIZE.
  replace (len pre + (1 + len suf) - (1 + len suf)) with (len pre) by lia. rewrite u64_id by lia.
  replace (len pre + (1 + len suf) >? 1000) with false by (symmetry; rewrite Z.gtb_ltb; apply Z.ltb_ge; lia).
  replace (len pre + (1 + len suf) <? 8) with false by (symmetry; apply Z.ltb_ge; lia). replace (len pre <? 1) with false by (symmetry; apply Z.ltb_ge; lia).
  replace (len suf <? 6) with false by (symmetry; apply Z.ltb_ge; lia). cbn [orb].
  replace (Z.to_nat (Z.min (len pre) (len pre + (1 + len suf) + 1))) with (length pre) by (rewrite Z.min_l by lia; unfold len; lia).
  replace (Z.to_nat (len pre)) with (length pre) by (unfold len; lia).
  replace (skipn (S (length pre)) (pre ++ 49 :: suf)) with suf.
  2:{ replace (pre ++ 49 :: suf) with ((pre ++ [49]) ++ suf) by (rewrite <- app_assoc; reflexivity). rewrite skipn_app_len; auto. rewrite app_length. cbn [length]. lia. }
  rewrite firstn_app_len by auto. rewrite <- app_assoc. reflexivity.
Qed.
Lemma long_pre : 84 <= len pre ->
  (all_printable (firstn 85 pre) = true -> bech32_decode (zeros 84) (zeros 84) (pre ++ 49 :: suf) = UB) /\
  (all_printable (firstn 85 pre) = false -> exists h d l, bech32_decode (zeros 84) (zeros 84) (pre ++ 49 :: suf) = Ok (0, h, d, l)).
Proof.
  intros LP. rewrite decode_open. split; intros P.
  - destruct (Z.eq_dec (len pre) 84) as [E|E].
    + rewrite firstn_all2 in P by (unfold len in E; lia).
      pose proof (dec_high_ok pre ([49] ++ suf ++ [0]) [] (zeros 84) 1 false false P) as D. rewrite len_zeros in D. specialize (D ltac:(lia)). cbn [app] in D. change (len (@nil Z)) with 0 in D. cbn [app]. rewrite D. cbn [bind].
      rewrite aset_out; [reflexivity|]. rewrite len_app, to_lower_len. unfold len at 2. rewrite skipn_length. unfold zeros. rewrite repeat_length. unfold len in *. lia.
    + replace (pre ++ [49] ++ suf ++ [0]) with (firstn 85 pre ++ (skipn 85 pre ++ [49] ++ suf ++ [0])) by (rewrite app_assoc, firstn_skipn; auto).
      assert (L85 : length (firstn 85 pre) = 85%nat) by (rewrite firstn_length; unfold len in *; lia).
      match goal with |- context [dec_high ?n 0 (firstn 85 pre ++ ?r)] => pose proof (dec_high_over (firstn 85 pre) r [] (zeros 84) 1 false false n P) as D end. cbn [app] in D. change (len (@nil Z)) with 0 in D.
      rewrite len_zeros in D. unfold len in D at 1. rewrite L85 in D. specialize (D ltac:(lia) ltac:(unfold len in *; lia)). cbn [app]. rewrite D. reflexivity.
  - replace (pre ++ [49] ++ suf ++ [0]) with (firstn 85 pre ++ (skipn 85 pre ++ [49] ++ suf ++ [0])) by (rewrite app_assoc, firstn_skipn; auto).
    match goal with |- context [dec_high ?n 0 (firstn 85 pre ++ ?r)] => pose proof (dec_high_cut (firstn 85 pre) r [] (zeros 84) 1 false false n P) as D end. cbn [app] in D. change (len (@nil Z)) with 0 in D.
    rewrite len_zeros in D. unfold len in D at 1. rewrite firstn_length in D. specialize (D ltac:(lia) ltac:(lia)). cbn [app]. rewrite D. cbn [bind]. eauto.
Qed.
Lemma long_suf : len pre < 84 -> 91 <= len suf ->
  (all_printable pre = true -> all_symbols (firstn 85 suf) = true -> bech32_decode (zeros 84) (zeros 84) (pre ++ 49 :: suf) = UB) /\
  (all_printable pre = false \/ all_symbols (firstn 85 suf) = false -> exists h d l, bech32_decode (zeros 84) (zeros 84) (pre ++ 49 :: suf) = Ok (0, h, d, l)).
Proof.
  intros LP LS. rewrite decode_open. destruct (all_printable pre) eqn:P.
  - pose proof (dec_high_ok pre ([49] ++ suf ++ [0]) [] (zeros 84) 1 false false P) as D. rewrite len_zeros in D. specialize (D ltac:(lia)). cbn [app] in D. change (len (@nil Z)) with 0 in D. cbn [app]. rewrite D. clear D. cbn [bind].
    destruct (skipn (length pre) (zeros 84)) as [|x hrest] eqn:EH.
    { exfalso. assert (Q : length (skipn (length pre) (zeros 84)) = O) by (rewrite EH; reflexivity). rewrite skipn_length in Q. unfold zeros in Q. rewrite repeat_length in Q. unfold len in *; lia. }
    rewrite aset_mid by (rewrite to_lower_len; reflexivity). cbn [bind].
    assert (L85 : length (firstn 85 suf) = 85%nat) by (rewrite firstn_length; unfold len in *; lia).
    replace (dec_data 0 suf) with (dec_data 0 (firstn 85 suf ++ skipn 85 suf)) by (rewrite firstn_skipn; auto). split.
    + intros _ S.
      match goal with |- context [dec_data 0 _ _ ?c ?lo ?up] => pose proof (dec_data_cut_over (firstn 85 suf) (skipn 85 suf) [] (zeros 84) c lo up S) as D end.
      cbn [app] in D. change (len (@nil Z)) with 0 in D. rewrite len_zeros in D. unfold len in D at 1 2. rewrite L85, skipn_length in D. specialize (D ltac:(lia) ltac:(unfold len in *; lia)). rewrite D. reflexivity.
    + intros [|S]; [discriminate|].
      match goal with |- context [dec_data 0 _ _ ?c ?lo ?up] => pose proof (dec_data_cut (firstn 85 suf) (skipn 85 suf) [] (zeros 84) c lo up S) as D end.
      cbn [app] in D. change (len (@nil Z)) with 0 in D. rewrite len_zeros in D. unfold len in D at 1. rewrite L85 in D. specialize (D ltac:(lia)). rewrite D. cbn [bind]. eauto.
  - split; [discriminate|]. intros _.
    pose proof (dec_high_none pre ([49] ++ suf ++ [0]) [] (zeros 84) 1 false false P) as D. rewrite len_zeros in D. specialize (D ltac:(lia)). cbn [app] in D. change (len (@nil Z)) with 0 in D. cbn [app]. rewrite D. cbn [bind]. eauto.
Qed.
End Split.

Definition overs (p a : list Z) : Prop :=
  (~ In 49 a /\ 85 <= len a /\ Forall visible (firstn 85 a)) \/
  (exists pre suf, a = pre ++ 49 :: suf /\ ~ In 49 suf /\ 84 <= len pre /\ 6 <= len suf /\ Forall visible (firstn 85 pre)) \/
  (exists pre suf, a = pre ++ 49 :: suf /\ ~ In 49 suf /\ Forall visible pre /\ 91 <= len suf /\ Forall bech_char (firstn 85 suf)) \/
  (exists vals, a = bech32_text p vals /\ Forall value_ok vals /\ checksum_ok p vals /\ hd 0 vals <= 16 /\ 60 <= len vals <= 71).

Lemma gs_over : forall gs, Forall value_ok gs -> 53 <= len gs -> convert_bits (zeros 32) 8 gs 5 false = UB.
Proof. intros gs V L. destruct (ungroup gs (zeros 32) V) as [_ U]. apply U. rewrite len_zeros. clear - L. dlia. Qed.
Lemma values_over : forall p n vals, two p n -> Forall value_ok vals -> checksum_ok p vals -> hd 0 vals <= 16 -> 60 <= len vals <= 71 ->
  segwit_addr_decode (zeros 32) p (bech32_text p vals) = UB.
Proof.
  intros p n vals TW V C H L. destruct (two_hrp _ _ TW) as [[HP HL] L2].
  assert (LO : existsb is_upper (bech32_text p vals) = false) by (apply text_lower; auto).
  destruct (read_text p vals (bech32_text p vals) V (lower_id _ LO)) as (pre & suf & E & N & EP & EV & AS). rewrite E.
  assert (LS : len suf = len vals) by (rewrite <- (len_map _ _ symbol_value suf), EV; reflexivity).
  assert (LP : len pre = 2) by (rewrite <- (to_lower_len pre), EP; auto).
  assert (WF : well_formed pre suf && (sum_of pre suf =? 1) = true).
  { unfold well_formed, sum_of. rewrite EP, EV, AS. replace (all_printable pre) with true by (symmetry; apply hrp_printable; rewrite EP; auto).
    apply checksum_fold in C. rewrite C, <- E. unfold mixed_case. rewrite LO. replace (1 <=? len pre) with true by (symmetry; apply Z.leb_le; lia). replace (6 <=? len suf) with true by (symmetry; apply Z.leb_le; lia). reflexivity. }
  pose proof (decode_fits (zeros 84) (zeros 84) pre suf N) as D. rewrite len_zeros in D. specialize (D ltac:(lia) ltac:(lia) ltac:(lia)). rewrite WF in D.
  unfold segwit_addr_decode. rewrite D. cbn [bind]. change (1 =? 0) with false. cbv iota.
  replace ((len suf - 6 =? 0) || (65 <? len suf - 6)) with false by (symmetry; apply orb_false_iff; split; [apply Z.eqb_neq|apply Z.ltb_ge]; lia).
  rewrite EP, c_string_ok by auto. destruct (list_eq_dec Z.eq_dec p p) as [_|Q]; [|contradiction]. cbn [negb]. rewrite EV.
  destruct vals as [|v vals]; [rewrite len_nil in L; lia|]. cbn [hd] in H. rewrite len_cons in *.
  replace (length suf - 6)%nat with (S (length suf - 7)) by (unfold len in *; lia). cbn [firstn nth app skipn].
  replace (16 <? v) with false by (symmetry; apply Z.ltb_ge; lia).
  assert (LG : length (firstn (length suf - 7) vals) = (length suf - 7)%nat) by (rewrite firstn_length; unfold len in *; lia).
  rewrite firstn_app_len by (rewrite LG; unfold len in *; lia).
  rewrite gs_over; [reflexivity| |unfold len in *; rewrite LG; lia].
  inversion V; subst. apply Forall_forall. intros x I. apply in_firstn in I. rewrite Forall_forall in *. auto.
Qed.

Lemma segwit_of_zero : forall buf p a h d l, bech32_decode (zeros 84) (zeros 84) a = Ok (0, h, d, l) -> segwit_addr_decode buf p a = Ok None.
Proof. intros buf p a h d l E. unfold segwit_addr_decode. rewrite E. reflexivity. Qed.
Lemma segwit_of_ub : forall buf p a, bech32_decode (zeros 84) (zeros 84) a = UB -> segwit_addr_decode buf p a = UB.
Proof. intros buf p a E. unfold segwit_addr_decode. rewrite E. reflexivity. Qed.
Lemma first_two : forall p n r pre suf, two p n -> p ++ r = pre ++ 49 :: suf -> 2 <= len pre /\ firstn 2 pre = p.
Proof.
  intros p n r pre suf TW E. destruct TW as [[-> _]|[-> _]]; cbn in E; (destruct pre as [|x [|y pre]]; cbn in E; [discriminate|discriminate|]);
    injection E as <- <- _; (split; [rewrite !len_cons; pose proof (len_nonneg _ pre); lia|reflexivity]).
Qed.

Lemma decide_over : forall p n r, two p n -> len (p ++ r) <= 100 -> overs p (p ++ r) \/ exists x, segwit_addr_decode (zeros 32) p (p ++ r) = Ok x.
Proof.
  intros p n r TW L. destruct (two_hrp _ _ TW) as [[HP HL] L2]. destruct (split_last (p ++ r)) as [N|(pre & suf & E & N)].
  - destruct (Z.le_gt_cases (len (p ++ r)) 84) as [L84|L84].
    + right. destruct (decode_no_one (zeros 84) (zeros 84) (p ++ r) N) as (h & d & l & E); [rewrite len_zeros; lia|]. exists None. exact (segwit_of_zero _ _ _ _ _ _ E).
    + destruct (none_spec (p ++ r) N ltac:(lia)) as [_ S2]. destruct (all_printable (firstn 85 (p ++ r))) eqn:P.
      * left. left. split; [exact N|]. split; [lia|]. apply visible_all. exact P.
      * right. destruct (S2 eq_refl) as (h & d & l & E). exists None. exact (segwit_of_zero _ _ _ _ _ _ E).
  - destruct (first_two p n r pre suf TW E) as [LP FP]. rewrite E in *. rewrite len_app, len_cons in L. pose proof (len_nonneg _ suf).
    destruct (Z.lt_ge_cases (len suf) 6) as [L6|L6].
    { right. exists None. unfold segwit_addr_decode, bech32_decode. cbv zeta. rewrite data_part_split, len_app, len_cons by auto.
      destruct ((_ <? 8) || _); [reflexivity|]. replace (len suf <? 6) with true by (symmetry; apply Z.ltb_lt; lia). rewrite orb_true_r. reflexivity. }
    assert (LN : len pre + len suf < 1000) by lia. assert (L1 : 1 <= len pre) by lia.
    destruct (Z.le_gt_cases 84 (len pre)) as [L84|L84].
    { destruct (long_pre pre suf N L6 L1 LN L84) as [_ S2]. destruct (all_printable (firstn 85 pre)) eqn:P.
      - left. right. left. exists pre, suf. split; [reflexivity|]. split; [exact N|]. split; [lia|]. split; [lia|]. apply visible_all. exact P.
      - right. destruct (S2 eq_refl) as (h & d & l & E'). exists None. exact (segwit_of_zero _ _ _ _ _ _ E'). }
    destruct (Z.le_gt_cases 91 (len suf)) as [L91|L91].
    { destruct (long_suf pre suf N L6 L1 LN ltac:(lia) L91) as [_ S2]. destruct (all_printable pre) eqn:P.
      - destruct (all_symbols (firstn 85 suf)) eqn:Q.
        + left. right. right. left. exists pre, suf. split; [reflexivity|]. split; [exact N|]. split; [apply visible_all; exact P|]. split; [lia|]. apply bech_all. exact Q.
        + right. destruct (S2 (or_intror eq_refl)) as (h & d & l & E'). exists None. exact (segwit_of_zero _ _ _ _ _ _ E').
      - right. destruct (S2 (or_introl eq_refl)) as (h & d & l & E'). exists None. exact (segwit_of_zero _ _ _ _ _ _ E'). }
    pose proof (decode_fits (zeros 84) (zeros 84) pre suf N) as F. rewrite len_zeros in F. specialize (F ltac:(lia) ltac:(lia) ltac:(lia)).
    destruct (well_formed pre suf && (sum_of pre suf =? 1)) eqn:WF.
    2:{ right. destruct F as (h & d & l & E'). exists None. exact (segwit_of_zero _ _ _ _ _ _ E'). }
    unfold segwit_addr_decode. rewrite F. cbn [bind]. change (1 =? 0) with false. cbv iota.
    destruct ((_ =? 0) || _) eqn:E65; [right; eauto|]. apply orb_false_elim in E65 as [E0 E65]. apply Z.eqb_neq in E0. apply Z.ltb_ge in E65.
    apply andb_prop in WF as [WF SUM]. apply Z.eqb_eq in SUM. unfold well_formed in WF. apply andb_prop in WF as [WF MC]. apply andb_prop in WF as [WF AS]. apply andb_prop in WF as [WF _]. apply andb_prop in WF as [_ AP]. apply hrp_printable in AP. apply negb_true_iff in MC.
    rewrite c_string_ok by auto. destruct (list_eq_dec Z.eq_dec p (to_lower pre)) as [EH|]; [|cbn [negb]; right; eauto]. cbn [negb].
    assert (EPre : pre = p).
    { assert (len pre = 2) by (rewrite <- (to_lower_len pre), <- EH; auto). rewrite firstn_all2 in FP by (unfold len in *; lia). exact FP. }
    destruct (symbols_values suf AS) as [SV SE]. set (vals := map symbol_value suf) in *.
    assert (LV : length vals = length suf) by apply map_length.
    destruct vals as [|v vals'] eqn:EVs; [cbn [length] in LV; unfold len in *; lia|]. cbn [length] in LV.
    replace (length suf - 6)%nat with (S (length suf - 7)) by (unfold len in *; lia). cbn [firstn nth app skipn].
    destruct (Z.ltb_spec 16 v) as [|V16]; [right; eauto|].
    assert (LG : length (firstn (length suf - 7) vals') = (length suf - 7)%nat) by (rewrite firstn_length; lia).
    rewrite firstn_app_len by (rewrite LG; unfold len in *; lia). set (gs := firstn (length suf - 7) vals') in *.
    assert (SVG : Forall value_ok gs).
    { inversion SV; subst. apply Forall_forall. intros x I. apply in_firstn in I. rewrite Forall_forall in *. auto. }
    destruct (Z.le_gt_cases (5 * len gs / 8) 32) as [LB|LB].
    + destruct (ungroup gs (zeros 32) SVG) as [U1 _]. rewrite len_zeros in U1. destruct (U1 LB) as (q & prog & P1 & P2 & PP).
      right. rewrite P2. cbn [bind]. destruct (q =? 0); [eauto|]. destruct ((len prog <? 2) || (40 <? len prog)); [eauto|].
      match goal with |- context [if ?b then _ else _] => destruct b end; eauto.
    + left. right. right. right. exists (v :: vals').
      assert (LGZ : len gs = len suf - 7) by (unfold len; rewrite LG; unfold len in *; lia).
      assert (TL : to_lower (pre ++ 49 :: suf) = pre ++ 49 :: suf).
      { rewrite EPre in *. apply mixed_lower; [destruct TW as [[-> _]|[-> _]]; auto|exact MC]. }
      assert (SL : to_lower suf = suf).
      { rewrite to_lower_app in TL. change (to_lower (49 :: suf)) with (49 :: to_lower suf) in TL. rewrite <- EH, EPre in TL. apply app_inv_head in TL. injection TL as TL. exact TL. }
      split; [unfold bech32_text; rewrite EPre; change (chars "1" ++ map symbol (v :: vals')) with (49 :: map symbol (v :: vals')); rewrite SE, SL; reflexivity|].
      split; [exact SV|]. split; [apply checksum_fold; unfold sum_of in SUM; fold vals in SUM; rewrite EVs, <- EH in SUM; exact SUM|].
      split; [exact V16|]. rewrite len_cons. unfold len. replace (length vals') with (length suf - 1)%nat by lia. rewrite LGZ in LB. clear - LB E65 L6. unfold len in *. dlia.
Qed.

Lemma overruns_iff : forall dsha s a, script_fromAddress dsha s a = UB <-> overruns a.
Proof.
  intros dsha s a. split.
  - intros U. destruct (Z.le_gt_cases (len a) 100) as [L|L].
    2:{ exfalso. destruct (short_safe dsha s a (or_intror (or_introl L))) as (s' & E). congruence. }
    assert (P : exists p n r, two p n /\ a = p ++ r).
    { destruct (starts_with (chars "bc") a) eqn:E1; [destruct (starts_spec _ _ E1) as (r & ->); exists (chars "bc"), Mainnet, r; split; [left; auto|auto]|].
      destruct (starts_with (chars "tb") a) eqn:E2; [destruct (starts_spec _ _ E2) as (r & ->); exists (chars "tb"), Testnet, r; split; [right; auto|auto]|].
      exfalso. destruct (short_safe dsha s a) as (s' & E); [|congruence]. right. right. unfold starts_with in E1, E2.
      split; intros Q; [change (length (chars "bc")) with 2%nat in E1; rewrite Q in E1; vm_compute in E1; discriminate|change (length (chars "tb")) with 2%nat in E2; rewrite Q in E2; vm_compute in E2; discriminate]. }
    destruct P as (p & n & r & TW & ->). split; [exact L|]. exists p. split; [destruct TW as [[-> _]|[-> _]]; auto|].
    split; [destruct TW as [[-> _]|[-> _]]; reflexivity|].
    destruct (decide_over p n r TW L) as [O|(x & E)]; [exact O|]. exfalso. rewrite (read_bech dsha s p n r TW L), E in U. cbn [bind] in U.
    destruct x as [[[v w] l]|]; discriminate.
  - intros (L & p & P & F & O). assert (TW : exists n, two p n) by (destruct P as [-> | ->]; [exists Mainnet; left|exists Testnet; right]; auto). destruct TW as (n & TW).
    assert (E : a = p ++ skipn 2 a) by (rewrite <- F; symmetry; apply firstn_skipn).
    rewrite E, (read_bech dsha s p n (skipn 2 a) TW) by (rewrite <- E; exact L). rewrite <- E.
    assert (U : segwit_addr_decode (zeros 32) p a = UB); [|rewrite U; reflexivity].
    destruct O as [(N & L85 & V)|[(pre & suf & EA & N & L84 & L6 & V)|[(pre & suf & EA & N & V & L91 & B)|(vals & EA & V & C & H & LV)]]].
    + apply segwit_of_ub. apply (none_spec a N); [lia|]. apply visible_all. exact V.
    + apply segwit_of_ub. rewrite EA in *. rewrite len_app, len_cons in L. apply (long_pre pre suf N); try lia. apply visible_all. exact V.
    + apply segwit_of_ub. rewrite EA in *. destruct (first_two p n (skipn 2 (pre ++ 49 :: suf)) pre suf TW) as [LP _]; [symmetry; exact E|]. rewrite len_app, len_cons in L.
      apply (long_suf pre suf N); try lia; [apply visible_all; exact V|apply bech_all; exact B].
    + rewrite EA. apply (values_over p n); auto.
Qed.
