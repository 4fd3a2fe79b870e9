(** Segregated witness addresses: round trip, exactness, error detection. *)
From Coq Require Import Lia.
From Verif Require Import Base.Bytes Base.BytesFacts Spec.Codecs Model.Bech32 Spec.Bech32 Proof.BechCode Proof.BechErr Proof.BechFacts Proof.BechAddr.
Open Scope Z_scope.

Lemma in_firstn : forall (x : Z) n l, In x (firstn n l) -> In x l.
Proof. intros x n l H. rewrite <- (firstn_skipn n l). apply in_or_app. auto. Qed.
Lemma to_lower_len : forall s, len (to_lower s) = len s. Proof. intros. apply len_map. Qed.
Lemma to_lower_app : forall a b, to_lower (a ++ b) = to_lower a ++ to_lower b. Proof. intros. apply map_app. Qed.
Lemma symbols_values : forall suf, all_symbols suf = true -> Forall value_ok (map symbol_value suf) /\ map symbol (map symbol_value suf) = to_lower suf.
Proof.
  induction suf as [|ch suf IH]; intros H; [split; constructor|]. cbn [all_symbols forallb] in H. apply andb_prop in H as [H1 H2]. apply negb_true_iff, Z.eqb_neq in H1.
  destruct (IH H2) as [A B]. destruct (symbol_value_spec ch) as [E|[V E]]; [contradiction|]. split; [constructor; auto|]. cbn [map to_lower]. rewrite B, E. reflexivity.
Qed.
Lemma values_symbols : forall vals suf, Forall value_ok vals -> to_lower suf = map symbol vals -> map symbol_value suf = vals /\ all_symbols suf = true /\ ~ In 49 suf.
Proof.
  induction vals as [|v vals IH]; intros [|ch suf] HF E; try discriminate; [cbn; auto|]. inversion HF as [|? ? Hv HF']; subst. cbn [to_lower map] in E. injection E as E1 E2.
  destruct (IH suf HF' E2) as (A & B & C). pose proof (symbol_value_of v ch Hv E1) as V. cbn [map all_symbols forallb]. rewrite V, A. fold (all_symbols suf). rewrite B.
  split; [auto|]. unfold value_ok in Hv. split; [destruct (Z.eqb_spec v (-1)); [lia|reflexivity]|]. intros [->|I]; [|auto]. destruct (symbol_range v Hv) as (_ & N & _). apply N. rewrite <- E1. reflexivity.
Qed.
Lemma low1_one : forall x, low1 x = 49 -> x = 49.
Proof. intros x. unfold low1, is_upper. destruct (Z.leb_spec 65 x), (Z.leb_spec x 90); cbn [andb]; lia. Qed.
Lemma hrp_printable : forall pre, Forall hrp_char (to_lower pre) <-> all_printable pre = true.
Proof.
  intros pre. unfold to_lower, all_printable. rewrite Forall_map, forallb_forall, Forall_forall. split; intros H x I; specialize (H x I).
  - destruct H as [H _]. unfold printable. unfold is_upper in H. destruct (Z.leb_spec 65 x), (Z.leb_spec x 90); cbn [andb] in H; apply andb_true_intro; split; apply Z.leb_le; lia.
  - unfold printable in H. apply andb_prop in H as [H1 H2]. apply Z.leb_le in H1, H2. split; [|apply low1_nonsym]. unfold is_upper. destruct (Z.leb_spec 65 x), (Z.leb_spec x 90); cbn [andb]; lia.
Qed.
Lemma c_string_ok : forall hrp rest, Forall hrp_char hrp -> c_string (hrp ++ 0 :: rest) = hrp.
Proof.
  intros hrp rest H. unfold c_string. rewrite count_while_app_all.
  - cbn [count_while]. change (0 =? 0) with true. cbn [negb]. rewrite Nat.add_0_r. apply firstn_app_len; auto.
  - apply forallb_forall. intros x I. rewrite Forall_forall in H. destruct (H x I). destruct (Z.eqb_spec x 0); [lia|reflexivity].
Qed.
(** How a string reads whose lower-case form is a bech32 text. *)
Lemma read_text : forall hrp vals s, Forall value_ok vals -> to_lower s = bech32_text hrp vals ->
  exists pre suf, s = pre ++ 49 :: suf /\ ~ In 49 suf /\ to_lower pre = hrp /\ map symbol_value suf = vals /\ all_symbols suf = true.
Proof.
  intros hrp vals s HV E. unfold bech32_text, to_lower in E. apply map_eq_app in E as (pre & l2 & -> & E1 & E2).
  destruct l2 as [|x suf]; [discriminate|]. cbn [map app] in E2. change (chars "1" ++ map symbol vals) with (49 :: map symbol vals) in E2. injection E2 as E2 E3.
  apply low1_one in E2. subst x. destruct (values_symbols vals suf HV E3) as (A & B & C). exists pre, suf. auto.
Qed.

Lemma program_groups : forall ver prog gs, program_ok ver prog -> in_groups prog gs -> 2 <= len prog <= 40 /\ 4 <= len gs <= 64 /\ 5 * len gs / 8 = len prog.
Proof. intros ver prog gs (_ & _ & H & _) G. apply in_groups_len in G. split; [auto|]. rewrite G. split; dlia. Qed.

Lemma segwit_forward : forall hrp ver prog s buf, hrp_ok hrp -> program_ok ver prog -> segwit_text hrp ver prog (to_lower s) -> mixed_case s = false ->
  (len prog <= len buf -> segwit_addr_decode buf hrp s = Ok (Some (ver, prog ++ skipn (length prog) buf, len prog))) /\
  (len buf < len prog -> segwit_addr_decode buf hrp s = UB).
Proof.
  intros hrp ver prog s buf [Hh Lh] HP (gs & check & HG & HC & LC & CS & ET) HM.
  pose proof HP as (Hb & Hv & Hl & H0). destruct (program_groups _ _ _ HP HG) as (_ & LG & LU). pose proof HG as (HGv & _ & _).
  assert (HV : Forall value_ok (ver :: gs ++ check)) by (constructor; [unfold value_ok; lia|apply Forall_app; auto]).
  destruct (read_text _ _ _ HV ET) as (pre & suf & -> & N & EP & EV & AS).
  assert (LS : len suf = 7 + len gs) by (rewrite <- (len_map _ _ symbol_value suf), EV, len_cons, len_app; lia).
  assert (LP : len pre = len hrp) by (rewrite <- EP, to_lower_len; reflexivity).
  assert (WF : well_formed pre suf && (sum_of pre suf =? 1) = true).
  { unfold well_formed, sum_of. rewrite EP, EV, AS, HM. replace (all_printable pre) with true by (symmetry; apply hrp_printable; rewrite EP; auto).
    apply checksum_fold in CS. rewrite CS. replace (1 <=? len pre) with true by (symmetry; apply Z.leb_le; lia). replace (6 <=? len suf) with true by (symmetry; apply Z.leb_le; lia). reflexivity. }
  pose proof (decode_fits (zeros 84) (zeros 84) pre suf N) as D. rewrite len_zeros in D. specialize (D ltac:(lia) ltac:(lia) ltac:(lia)). rewrite WF in D.
  unfold segwit_addr_decode. rewrite D. cbn [bind]. change (1 =? 0) with false. cbv iota.
  replace ((len suf - 6 =? 0) || (65 <? len suf - 6)) with false by (symmetry; apply orb_false_iff; split; [apply Z.eqb_neq|apply Z.ltb_ge]; lia).
  rewrite EP, c_string_ok by auto. destruct (list_eq_dec Z.eq_dec hrp hrp) as [_|Q]; [|contradiction]. cbn [negb]. rewrite EV.
  replace (length suf - 6)%nat with (S (length gs)) by (unfold len in LS; lia). cbn [firstn]. rewrite firstn_app_len by auto. cbn [nth app skipn].
  replace (16 <? ver) with false by (symmetry; apply Z.ltb_ge; lia). replace (Z.to_nat (len suf - 6 - 1)) with (length gs) by (unfold len in *; lia). rewrite firstn_app_len by auto.
  destruct (ungroup gs buf HGv) as [U1 U2]. rewrite LU in U1, U2. split.
  - intros LB. destruct (U1 LB) as (r & prog' & L1 & L2 & [(-> & B1 & B2)|(_ & B2)]); [|exfalso; eapply B2; eauto].
    pose proof (ungroup_unique prog' prog gs B1 Hb B2 HG) as ->. rewrite L2. cbn [bind]. change (1 =? 0) with false. cbv iota.
    replace ((len prog <? 2) || (40 <? len prog)) with false by (symmetry; apply orb_false_iff; split; apply Z.ltb_ge; lia).
    replace ((ver =? 0) && negb (len prog =? 20) && negb (len prog =? 32)) with false; [reflexivity|].
    destruct (Z.eqb_spec ver 0) as [E|]; [|reflexivity]. destruct (H0 E) as [-> | ->]; reflexivity.
  - intros LB. rewrite (U2 LB). reflexivity.
Qed.

Lemma segwit_inv : forall buf hrp s ver w n, segwit_addr_decode buf hrp s = Ok (Some (ver, w, n)) ->
  exists prog, n = len prog /\ w = prog ++ skipn (length prog) buf /\ program_ok ver prog /\ hrp_ok hrp /\ segwit_text hrp ver prog (to_lower s) /\ mixed_case s = false.
Proof.
  intros buf hrp s ver w n H. unfold segwit_addr_decode in H.
  destruct (bech32_decode (zeros 84) (zeros 84) s) as [[[[ok h] d] l]|] eqn:D; cbn [bind] in H; [|discriminate].
  destruct (Z.eqb_spec ok 0) as [|NZ]; [discriminate|].
  assert (OK1 : ok = 1).
  { clear H. unfold bech32_decode in D. cbv zeta in D.
    destruct ((_ <? 8) || _); [injection D; intros; lia|]. destruct ((_ <? 1) || _); [injection D; intros; lia|].
    destruct (dec_high _ _ _ _ _ _ _) as [[[[[c1 lo1] up1] h1]|]|]; cbn [bind] in D; [|injection D; intros; lia|discriminate].
    destruct (aset h1 _ 0); cbn [bind] in D; [|discriminate].
    destruct (dec_data _ _ _ _ _ _) as [[[[[c2 lo2] up2] d2]|]|]; cbn [bind] in D; [|injection D; intros; lia|discriminate].
    destruct (lo2 && up2); [injection D; intros; lia|]. destruct (c2 =? 1); injection D; intros; lia. }
  subst ok. destruct (decode_inv _ _ _ _ _ _ D) as (pre & suf & -> & N & L1 & L2 & L3 & WF & SUM). rewrite len_zeros in L1, L2.
  pose proof (decode_fits (zeros 84) (zeros 84) pre suf N) as F. rewrite len_zeros in F. specialize (F ltac:(lia) ltac:(lia) ltac:(lia)). rewrite WF, SUM in F. change (1 =? 1) with true in F. cbn [andb] in F.
  rewrite F in D. injection D as <- <- <-. unfold well_formed in WF. apply andb_prop in WF as [WF MC]. apply andb_prop in WF as [WF AS]. apply andb_prop in WF as [WF L6]. apply andb_prop in WF as [L0 AP].
  apply negb_true_iff in MC. apply Z.leb_le in L6, L0. apply hrp_printable in AP. rewrite c_string_ok in H by auto.
  destruct ((_ =? 0) || _) eqn:E65; [discriminate|]. apply orb_false_elim in E65 as [E0 E65]. apply Z.eqb_neq in E0. apply Z.ltb_ge in E65.
  destruct (list_eq_dec Z.eq_dec hrp (to_lower pre)) as [->|]; [|discriminate]. cbn [negb] in H.
  unfold sum_of in SUM. destruct (symbols_values suf AS) as [SV SE]. set (vals := map symbol_value suf) in *.
  assert (LV : length vals = length suf) by apply map_length.
  destruct vals as [|v vals']; [cbn [length] in LV; unfold len in *; lia|]. inversion SV as [|? ? Hv SV']; subst. cbn [length] in LV.
  set (gs := firstn (length suf - 7) vals'). set (check := skipn (length suf - 7) vals').
  assert (EV : vals' = gs ++ check) by (symmetry; apply firstn_skipn).
  replace (length suf - 6)%nat with (S (length suf - 7)) in H by (unfold len in *; lia). cbn [firstn] in H. fold gs in H. cbn [nth app skipn] in H.
  destruct (Z.ltb_spec 16 v) as [|LV16]; [discriminate|].
  assert (LG : length gs = (length suf - 7)%nat) by (unfold gs; rewrite firstn_length; lia).
  assert (LC : len check = 6) by (unfold check, len in *; rewrite skipn_length; lia).
  assert (SVG : Forall value_ok gs /\ Forall value_ok check) by (rewrite EV in SV'; apply Forall_app; auto). destruct SVG as [SVG SVC].
  replace (Z.to_nat (len suf - 6 - 1)) with (length gs) in H by (unfold len in *; lia). rewrite firstn_app_len in H by auto.
  destruct (Z.le_gt_cases (5 * len gs / 8) (len buf)) as [LB|LB].
  2:{ destruct (ungroup gs buf SVG) as [_ U2]. rewrite (U2 LB) in H. discriminate. }
  destruct (ungroup gs buf SVG) as [U1 _]. destruct (U1 LB) as (r & prog & P1 & P2 & PP). rewrite P2 in H. cbn [bind] in H.
  destruct PP as [(-> & B1 & B2)|(-> & _)]; [|discriminate]. change (1 =? 0) with false in H. cbv iota in H.
  destruct ((len prog <? 2) || (40 <? len prog)) eqn:EL; [discriminate|]. apply orb_false_elim in EL as [EL1 EL2]. apply Z.ltb_ge in EL1, EL2.
  destruct ((v =? 0) && negb (len prog =? 20) && negb (len prog =? 32)) eqn:E20; [discriminate|]. injection H as <- <- <-.
  exists prog. split; [auto|]. split; [auto|]. split.
  { split; [auto|]. unfold value_ok in Hv. split; [lia|]. split; [lia|]. intros ->. change (0 =? 0) with true in E20. cbn [andb] in E20.
    destruct (Z.eqb_spec (len prog) 20); [auto|]. destruct (Z.eqb_spec (len prog) 32); [auto|]. discriminate. }
  split; [split; [auto|]; rewrite to_lower_len; lia|]. split; [|auto].
  exists gs, check. split; [auto|]. split; [auto|]. split; [auto|]. split.
  - apply checksum_fold. rewrite <- EV. exact SUM.
  - unfold bech32_text. rewrite to_lower_app. f_equal. change (to_lower (49 :: suf)) with (49 :: to_lower suf). rewrite <- EV, SE. reflexivity.
Qed.

Lemma segwit_safe_gen : forall buf hrp s, (forall pre suf, s = pre ++ 49 :: suf -> ~ In 49 suf -> to_lower pre = hrp -> len suf <= 71 -> sum_of pre suf = 1 -> 5 * (len suf - 7) / 8 <= len buf) ->
  len s <= 84 \/ (In 49 s /\ len s <= 90) -> exists r, segwit_addr_decode buf hrp s = Ok r.
Proof.
  intros buf hrp s LB HS. unfold segwit_addr_decode. destruct (split_last s) as [N|(pre & suf & -> & N)].
  - destruct (decode_no_one (zeros 84) (zeros 84) s N) as (h & d & l & ->); [rewrite len_zeros; destruct HS as [|[]]; [lia|contradiction]|]. cbn [bind]. change (0 =? 0) with true. eauto.
  - assert (L90 : len pre + 1 + len suf <= 90) by (rewrite len_app, len_cons in HS; destruct HS as [|[]]; lia).
    pose proof (len_nonneg _ pre). pose proof (len_nonneg _ suf).
    destruct (Z.ltb_spec (len pre) 84) as [LP|LP].
    + pose proof (decode_fits (zeros 84) (zeros 84) pre suf N) as F. rewrite len_zeros in F. specialize (F ltac:(lia) ltac:(lia) ltac:(lia)).
      destruct (well_formed pre suf && (sum_of pre suf =? 1)) eqn:WF.
      * rewrite F. cbn [bind]. change (1 =? 0) with false. cbv iota.
        destruct ((_ =? 0) || _) eqn:E65; [eauto|]. apply orb_false_elim in E65 as [E0 E65]. apply Z.eqb_neq in E0. apply Z.ltb_ge in E65.
        apply andb_prop in WF as [WF SUM]. apply Z.eqb_eq in SUM. unfold well_formed in WF. apply andb_prop in WF as [WF _]. apply andb_prop in WF as [WF AS]. apply andb_prop in WF as [WF L6]. apply andb_prop in WF as [L0 AP]. apply hrp_printable in AP.
        rewrite c_string_ok by auto. destruct (list_eq_dec Z.eq_dec hrp (to_lower pre)) as [EH|]; [|cbn [negb]; eauto]. cbn [negb].
        destruct (16 <? _); [eauto|]. apply Z.leb_le in L6, L0. specialize (LB pre suf eq_refl N (eq_sym EH) ltac:(lia) SUM).
        destruct (symbols_values suf AS) as [SV _].
        match goal with |- context [convert_bits buf 8 ?x 5 false] => set (gs := x) end.
        assert (LM : length (map symbol_value suf) = length suf) by apply map_length.
        assert (SVG : Forall value_ok gs).
        { unfold gs. destruct (map symbol_value suf) as [|v vs]; [cbn [length] in LM; unfold len in *; lia|]. replace (length suf - 6)%nat with (S (length suf - 7)) by (unfold len in *; lia).
          cbn [firstn app skipn]. inversion SV; subst. cbn [length] in LM. rewrite firstn_app. replace (Z.to_nat (len suf - 6 - 1) - length (firstn (length suf - 7) vs))%nat with O by (rewrite firstn_length; unfold len in *; lia).
          cbn [firstn]. rewrite app_nil_r. rewrite Forall_forall in *. intros x I. apply H4. eapply in_firstn. eapply in_firstn. eauto. }
        assert (LG : len gs <= len suf - 7) by (unfold gs, len in *; rewrite firstn_length; lia).
        assert (LU : 5 * len gs / 8 <= len buf) by (pose proof (len_nonneg _ gs); clear - LG LB H1; dlia).
        destruct (ungroup gs buf SVG) as [U1 _]. destruct (U1 LU) as (r & prog & P1 & P2 & PP).
        rewrite P2. cbn [bind]. destruct (r =? 0); [eauto|]. destruct ((len prog <? 2) || (40 <? len prog)); [eauto|].
        match goal with |- context [if ?b then _ else _] => destruct b end; eauto.
      * destruct F as (h & d & l & ->). cbn [bind]. change (0 =? 0) with true. eauto.
    + assert (LS : len suf < 6) by lia. unfold bech32_decode. cbv zeta. rewrite data_part_split, len_app, len_cons by auto. unfold MAX_BECH32_SIZE.
      replace (len pre + (1 + len suf) <? 8) with false by (symmetry; apply Z.ltb_ge; lia). replace (len pre + (1 + len suf) >? 1000) with false by (symmetry; rewrite Z.gtb_ltb; apply Z.ltb_ge; lia). cbn [orb].
      replace (len suf <? 6) with true by (symmetry; apply Z.ltb_lt; lia). rewrite orb_true_r. cbn [bind]. change (0 =? 0) with true. eauto.
Qed.

Lemma segwit_safe : forall buf hrp s, 40 <= len buf -> len s <= 84 \/ (In 49 s /\ len s <= 90) -> exists r, segwit_addr_decode buf hrp s = Ok r.
Proof.
  intros buf hrp s LB HS. apply segwit_safe_gen; auto. intros pre suf _ _ _ L _. clear - L LB. dlia.
Qed.
Lemma segwit_encode_ok : forall out hrp ver prog, Forall hrp_char hrp -> len hrp <= 900 -> program_ok ver prog -> len hrp + 8 + (8 * len prog + 4) / 5 < len out ->
  exists text, segwit_text hrp ver prog text /\ segwit_addr_encode out hrp ver prog = Ok (1, text ++ 0 :: skipn (length text + 1) out).
Proof.
  intros out hrp ver prog Hh Lh HP LO. pose proof HP as (Hb & Hv & Hl & H0). unfold segwit_addr_encode. cbv zeta.
  replace (16 <? ver) with false by (symmetry; apply Z.ltb_ge; lia).
  replace ((ver =? 0) && negb (len prog =? 20) && negb (len prog =? 32)) with false
    by (destruct (Z.eqb_spec ver 0) as [E|]; [|reflexivity]; destruct (H0 E) as [-> | ->]; reflexivity).
  replace ((len prog <? 2) || (40 <? len prog)) with false by (symmetry; apply orb_false_iff; split; apply Z.ltb_ge; lia).
  destruct (groups_ok prog (zeros 64) Hb) as (gs & HG & E); [rewrite len_zeros; dlia|]. rewrite E. cbn [bind].
  replace (Z.to_nat (len gs)) with (length gs) by (unfold len; lia). rewrite firstn_app_len by auto. rewrite u8_id by lia.
  destruct (program_groups _ _ _ HP HG) as (_ & LG & _). pose proof (in_groups_len _ _ HG) as LE. pose proof HG as (HGv & _ & _).
  destruct (bech32_encode_ok out hrp (ver :: gs)) as (check & C1 & C2 & C3 & C4); auto; try (rewrite len_cons; lia).
  { constructor; auto. unfold value_ok. lia. }
  exists (bech32_text hrp (ver :: gs ++ check)). split; [|exact C4]. exists gs, check. auto.
Qed.

Lemma segwit_text_unique : forall hrp ver prog a b, segwit_text hrp ver prog a -> segwit_text hrp ver prog b -> a = b.
Proof.
  intros hrp ver prog a b (gs & ch & G & V & L & C & ->) (gs' & ch' & G' & V' & L' & C' & ->). pose proof (in_groups_unique _ _ _ G G'); subst gs'.
  assert (ch = ch') as ->; [|reflexivity]. apply checksum_fold in C, C'. change (ver :: gs ++ ch) with ((ver :: gs) ++ ch) in C. change (ver :: gs ++ ch') with ((ver :: gs) ++ ch') in C'.
  rewrite fold_left_app in C, C'. apply (check_unique (fold_left step (ver :: gs) (hrp_sum hrp))); auto. congruence.
Qed.

(** Errors. *)
Lemma differences_prefix : forall p a b, differences (p ++ a) (p ++ b) = differences a b.
Proof. induction p as [|x p IH]; intros a b; [reflexivity|]. cbn [app differences]. rewrite Z.eqb_refl, IH. lia. Qed.
Lemma symbol_inj : forall v w, value_ok v -> value_ok w -> symbol v = symbol w -> v = w.
Proof.
  intros v w Hv Hw E. pose proof (symbol_value_of v (symbol v) Hv) as A. pose proof (symbol_value_of w (symbol v) Hw) as B.
  assert (L : low1 (symbol v) = symbol v) by (unfold low1; destruct (symbol_range v Hv) as (_ & _ & ->); reflexivity). rewrite L in A, B. rewrite <- A, <- B; auto.
Qed.
Lemma differences_symbols : forall a b, Forall value_ok a -> Forall value_ok b -> differences (map symbol a) (map symbol b) = differences a b.
Proof.
  induction a as [|x a IH]; intros [|y b] HA HB; try reflexivity. inversion HA; inversion HB; subst. cbn [map differences]. rewrite IH by auto.
  destruct (Z.eqb_spec x y) as [->|N]; [rewrite Z.eqb_refl; reflexivity|]. destruct (Z.eqb_spec (symbol x) (symbol y)) as [E|]; [|reflexivity]. apply symbol_inj in E; auto. contradiction.
Qed.
Lemma segwit_detects : forall buf buf' hrp a b r r', segwit_addr_decode buf hrp a = Ok (Some r) -> segwit_addr_decode buf' hrp b = Ok (Some r') ->
  len a = len b -> differences (to_lower a) (to_lower b) <= 4 -> to_lower a = to_lower b.
Proof.
  intros buf buf' hrp a b [[v w] n] [[v' w'] n'] HA HB HL HD. apply segwit_inv in HA as (p & _ & _ & PA & HH & (gs & ch & G & CV & CL & CS & ET) & _).
  apply segwit_inv in HB as (p' & _ & _ & PB & _ & (gs' & ch' & G' & CV' & CL' & CS' & ET') & _). rewrite ET, ET' in *.
  assert (LL : len (bech32_text hrp (v :: gs ++ ch)) = len (bech32_text hrp (v' :: gs' ++ ch'))) by (rewrite <- ET, <- ET', !to_lower_len; auto).
  destruct (program_groups _ _ _ PA G) as (_ & LG & _). destruct (program_groups _ _ _ PB G') as (_ & LG' & _).
  assert (VA : Forall value_ok (v :: gs ++ ch)). { destruct PA as (_ & ? & _). constructor; [unfold value_ok; lia|]. apply Forall_app; split; auto. apply G. }
  assert (VB : Forall value_ok (v' :: gs' ++ ch')). { destruct PB as (_ & ? & _). constructor; [unfold value_ok; lia|]. apply Forall_app; split; auto. apply G'. }
  set (x := v :: gs ++ ch) in *. set (y := v' :: gs' ++ ch') in *. unfold bech32_text in HD, LL. rewrite !differences_prefix, differences_symbols in HD by auto.
  rewrite !len_app, !len_map in LL. assert (x = y) as ->; [|reflexivity].
  apply (checks_detect (hrp_sum hrp)); auto; [unfold len in LL; lia|unfold x; rewrite len_cons, len_app; lia|]. apply checksum_fold in CS, CS'. congruence.
Qed.

(** The statements of Props/Bech32.v. *)
Lemma segwit_round_trip : forall hrp ver prog out, hrp_ok hrp -> program_ok ver prog -> len hrp + 8 + (8 * len prog + 4) / 5 < len out ->
  exists text, segwit_text hrp ver prog text /\ segwit_addr_encode out hrp ver prog = Ok (1, text ++ 0 :: skipn (length text + 1) out) /\
    forall s buf, to_lower s = text -> mixed_case s = false -> len prog <= len buf ->
      segwit_addr_decode buf hrp s = Ok (Some (ver, prog ++ skipn (length prog) buf, len prog)).
Proof.
  intros hrp ver prog out HH HP LO. destruct HH as [H1 H2]. destruct (segwit_encode_ok out hrp ver prog H1 ltac:(lia) HP LO) as (text & T & E).
  exists text. split; [auto|]. split; [auto|]. intros s buf ES MC LB. apply segwit_forward; auto; [split; auto|]. rewrite ES. auto.
Qed.
Lemma segwit_exact : forall hrp s buf ver w n, 40 <= len buf ->
  (segwit_addr_decode buf hrp s = Ok (Some (ver, w, n)) <->
   exists prog, hrp_ok hrp /\ program_ok ver prog /\ segwit_text hrp ver prog (to_lower s) /\ mixed_case s = false /\
     w = prog ++ skipn (length prog) buf /\ n = len prog).
Proof.
  intros hrp s buf ver w n LB. split.
  - intros H. apply segwit_inv in H as (prog & A & B & C & D & E & F). exists prog. auto 7.
  - intros (prog & A & B & C & D & -> & ->). apply segwit_forward; auto. destruct B as (_ & _ & ? & _). lia.
Qed.
Lemma segwit_detected : forall hrp a b buf r, 40 <= len buf -> len a <= 84 \/ (In 49 b /\ len a <= 90) -> segwit_addr_decode buf hrp a = Ok (Some r) ->
  len a = len b -> 1 <= differences (to_lower a) (to_lower b) <= 4 -> segwit_addr_decode buf hrp b = Ok None.
Proof.
  intros hrp a b buf r LB L84 HA HL HD. destruct (segwit_safe buf hrp b LB) as [[r'|] E]; [|exfalso|auto].
  - rewrite <- HL. auto.
  - pose proof (segwit_detects _ _ _ _ _ _ _ HA E HL ltac:(lia)) as Q. rewrite Q in HD.
    assert (D : forall l, differences l l = 0) by (induction l as [|x l IH]; cbn [differences]; rewrite ?Z.eqb_refl, ?IH; lia).
    rewrite D in HD. lia.
Qed.
Lemma bech32_detects : forall hb db hb' db' pre a b r r', ~ In 49 a -> ~ In 49 b ->
  bech32_decode hb db (pre ++ 49 :: a) = Ok (1, fst (fst r), snd (fst r), snd r) -> bech32_decode hb' db' (pre ++ 49 :: b) = Ok (1, fst (fst r'), snd (fst r'), snd r') ->
  len a = len b -> len a <= 89 -> differences (to_lower a) (to_lower b) <= 4 -> to_lower a = to_lower b.
Proof.
  assert (U : forall p s p' s', ~ In 49 s -> ~ In 49 s' -> p ++ 49 :: s = p' ++ 49 :: s' -> p = p' /\ s = s').
  { induction p as [|x p IH]; intros s [|y p'] s' N N' E; cbn [app] in E.
    - injection E as ->. auto.
    - injection E as _ E2. subst s. exfalso. apply N. apply in_or_app. right. left. reflexivity.
    - injection E as _ E2. subst s'. exfalso. apply N'. apply in_or_app. right. left. reflexivity.
    - injection E as -> E2. destruct (IH _ _ _ N N' E2); subst; auto. }
  intros hb db hb' db' pre a b r r' NA NB HA HB HL L89 HD.
  destruct (decode_inv _ _ _ _ _ _ HA) as (p1 & s1 & E1 & N1 & _ & _ & _ & W1 & S1). destruct (U _ _ _ _ NA N1 E1); subst p1 s1.
  destruct (decode_inv _ _ _ _ _ _ HB) as (p2 & s2 & E2 & N2 & _ & _ & _ & W2 & S2). destruct (U _ _ _ _ NB N2 E2); subst p2 s2.
  unfold well_formed in W1, W2. repeat (apply andb_prop in W1 as [W1 ?]; apply andb_prop in W2 as [W2 ?]).
  destruct (symbols_values a ltac:(auto)) as [VA EA]. destruct (symbols_values b ltac:(auto)) as [VB EB]. rewrite <- EA, <- EB in *.
  rewrite differences_symbols in HD by auto. f_equal. apply (checks_detect (hrp_sum (to_lower pre))); auto; rewrite ?map_length, ?len_map; auto.
  - unfold len in HL. lia.
  - unfold sum_of in *. congruence.
Qed.
