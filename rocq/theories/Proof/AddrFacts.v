(** Addresses. *)
From Coq Require Import Lia.
From Verif Require Import Base.Bytes Base.BytesFacts Model.Conversion Model.Stream Model.Script Model.Tx Model.Sign Model.Bech32 Model.Networks Model.Address
  Spec.Codecs Spec.Bech32 Spec.Objects Spec.Sighash Spec.Address Proof.BaseN Proof.Base58 Proof.BechAddr Proof.BechSegwit Proof.SignFacts.
Open Scope Z_scope.

(** * Base-58 texts *)
Lemma base_text_unique : forall b al bs t t', 0 < b -> base_text b al bs t -> base_text b al bs t' -> t = t'.
Proof.
  intros b al bs t t' Hb (z & r & d & E & R & D & N & V & ->) (z' & r' & d' & E' & R' & D' & N' & V' & ->).
  assert (ZZ : z = z' /\ r = r').
  { clear - E E' R R'. revert z' E E'. revert bs. induction z as [|z IH]; intros bs [|z'] E E'; cbn [repeat app] in E, E'.
    - split; congruence.
    - subst. cbn [hd] in R. congruence.
    - subst. cbn [hd] in R'. congruence.
    - rewrite E in E'. injection E' as E'. destruct (IH (repeat 0 z ++ r) z' eq_refl E') as [-> ->]. auto. }
  destruct ZZ as [-> ->]. f_equal. f_equal.
  assert (P : forall x y, digits_ok b x -> digits_ok b y -> hd 1 y <> 0 -> be_val b x = be_val b y -> len y <= len x).
  { intros x y X Y H1 H2. destruct y as [|a y]; [rewrite len_nil; apply len_nonneg|].
    inversion Y; subst. cbn [hd] in H1. pose proof (be_val_lower b a y Hb H4 ltac:(lia)) as L. pose proof (be_val_bound b x Hb X) as U.
    destruct (Z.le_gt_cases (len (a :: y)) (len x)) as [|G]; [auto|exfalso]. rewrite len_cons in G.
    assert (b ^ len x <= b ^ len y) by (apply Z.pow_le_mono_r; lia). lia. }
  apply (be_val_inj b); auto; [|congruence].
  pose proof (P d d' D D' N' ltac:(congruence)). pose proof (P d' d D' D N ltac:(congruence)). unfold len in *. lia.
Qed.

Lemma lead_digit : forall b k lo hi d ds, 1 < b -> digits_ok b (d :: ds) -> 0 < d -> 0 <= k -> 1 <= lo -> hi <= b ->
  lo * b ^ k <= be_val b (d :: ds) < hi * b ^ k -> lo <= d < hi.
Proof.
  intros b k lo hi d ds Hb D Hd Hk Hl Hh V. inversion D; subst. pose proof (be_val_bound b ds ltac:(lia) H2) as B. rewrite be_val_cons in V.
  assert (P : 0 < b ^ k) by (apply Z.pow_pos_nonneg; lia). assert (Q : 0 < b ^ len ds) by (apply Z.pow_pos_nonneg; [lia|apply len_nonneg]).
  destruct (Z.lt_trichotomy (len ds) k) as [L|[L|L]].
  - assert (b ^ (len ds + 1) <= b ^ k) by (apply Z.pow_le_mono_r; lia). rewrite Z.pow_add_r, Z.pow_1_r in H by (try apply len_nonneg; lia). nia.
  - subst k. nia.
  - assert (b ^ (k + 1) <= b ^ len ds) by (apply Z.pow_le_mono_r; lia). rewrite Z.pow_add_r, Z.pow_1_r in H by lia. nia.
Qed.

Definition lead_range (p lo hi k : Z) : Prop := 0 < p < 256 /\ 0 <= k /\ 1 <= lo /\ hi <= 58 /\ lo * 58 ^ k <= p * 256 ^ 24 /\ (p + 1) * 256 ^ 24 <= hi * 58 ^ k.
Lemma first_char : forall p lo hi k rest t, lead_range p lo hi k -> bytes_ok rest -> len rest = 24 -> base_text 58 base58_alphabet (p :: rest) t ->
  exists d u, lo <= d < hi /\ t = nth (Z.to_nat d) base58_alphabet 0 :: u.
Proof.
  intros p lo hi k rest t (Hp & Hk & Hl & Hh & V1 & V2) HB HL (z & r & d & E & R & D & N & V & ->).
  destruct z as [|z]; [|cbn in E; injection E as -> E; lia]. cbn [repeat app] in *. subst r.
  apply bytes_digits in HB. pose proof (be_val_bound 256 rest ltac:(lia) HB) as B. rewrite be_val_cons, HL in V. rewrite HL in B.
  destruct d as [|d ds]; [rewrite be_val_nil in V; nia|]. exists d, (map (fun d => nth (Z.to_nat d) base58_alphabet 0) ds). split; [|reflexivity].
  cbn [hd] in N. assert (0 < d) by (inversion D; subst; lia). apply (lead_digit 58 k lo hi d ds); auto; try lia. 
Qed.
Lemma first_zero : forall rest t, base_text 58 base58_alphabet (0 :: rest) t -> exists u, t = 49 :: u.
Proof.
  intros rest t (z & r & d & E & R & _ & _ & _ & ->). destruct z as [|z]; [cbn in E; subst r; cbn in R; congruence|]. eexists. reflexivity.
Qed.
Lemma range_5 : lead_range 5 2 3 33. Proof. unfold lead_range. repeat split; vm_compute; congruence. Qed.
Lemma range_111 : lead_range 111 44 46 33. Proof. unfold lead_range. repeat split; vm_compute; congruence. Qed.
Lemma range_196 : lead_range 196 1 2 34. Proof. unfold lead_range. repeat split; vm_compute; congruence. Qed.

(** The base-58 addresses start with 1, 2, 3, m or n. *)
Lemma address_first : forall p rest t, p = 0 \/ p = 5 \/ p = 111 \/ p = 196 -> bytes_ok rest -> len rest = 24 ->
  base_text 58 base58_alphabet (p :: rest) t -> exists c u, t = c :: u /\ In c (chars "123mn").
Proof.
  intros p rest t HP HB HL H. destruct HP as [-> | [-> | [-> | ->]]].
  - destruct (first_zero _ _ H) as (u & ->). exists 49, u. split; [auto|]. cbn. auto.
  - destruct (first_char _ _ _ _ _ _ range_5 HB HL H) as (d & u & R & ->). assert (d = 2) as -> by lia. eexists _, _. split; [reflexivity|]. cbn. auto.
  - destruct (first_char _ _ _ _ _ _ range_111 HB HL H) as (d & u & R & ->). assert (d = 44 \/ d = 45) as [-> | ->] by lia; eexists _, _; (split; [reflexivity|]); cbn; auto 6.
  - destruct (first_char _ _ _ _ _ _ range_196 HB HL H) as (d & u & R & ->). assert (d = 1) as -> by lia. eexists _, _. split; [reflexivity|]. cbn. auto.
Qed.
Lemma no_prefix : forall c u, In c (chars "123mn") -> find (fun n => starts_with (n_bech32 n) (c :: u)) networks = None.
Proof.
  intros c u I. assert (N : c <> 98 /\ c <> 116) by (cbn in I; lia). destruct N as [N1 N2].
  assert (P : forall p q, p <> c -> starts_with (p :: q) (c :: u) = false).
  { intros p q H. unfold starts_with. cbn [length firstn]. destruct (list_eq_dec _ _ _) as [E|]; [congruence|auto]. }
  unfold networks, Signet. cbn [find]. unfold Mainnet, Testnet, Regtest, n_bech32.
  change (chars "bc") with (98 :: chars "c"). change (chars "tb") with (116 :: chars "b"). change (chars "bcrt") with (98 :: chars "crt").
  rewrite !P by congruence. reflexivity.
Qed.

(** * Reading base-58 addresses *)
Section Check.
Variable dsha : list Z -> list Z.
Hypothesis dsha_len : forall m, length (dsha m) = 32%nat.
Hypothesis dsha_ok : forall m, bytes_ok (dsha m).

Lemma check_text : forall pl t, bytes_ok pl -> len pl = 21 -> base58check_text dsha pl t ->
  t = text58check dsha pl.
Proof.
  intros pl t B L H. apply (base_text_unique 58 base58_alphabet (with_check dsha pl)); [lia|exact H|].
  apply (enc_text_spec p58 p58_ok); [apply with_check_ok; auto|rewrite with_check_len by auto; lia].
Qed.
Lemma length_25 : forall bs, len bs = 25 -> toBaseLength p58 bs <= 35.
Proof.
  intros bs L. unfold toBaseLength. destruct (enc_size_val p58 p58_ok bs ltac:(lia)) as [-> _].
  assert (ZC : (zero_count bs <= length bs)%nat) by apply count_while_le. unfold len in L. cbn [bp_enum bp_eden p58].
  unfold len. rewrite L. assert (Z.of_nat (zero_count bs) <= 25) by lia. pose proof (Zle_0_nat (zero_count bs)) as P. generalize dependent (Z.of_nat (zero_count bs)). clear. intros. dlia.
Qed.
Lemma check_len_25 : forall pl, len pl = 21 -> len (with_check dsha pl) = 25.
Proof. intros. rewrite with_check_len by auto. lia. Qed.
Lemma check_text_len : forall pl, bytes_ok pl -> len pl = 21 -> len (text58check dsha pl) <= 35.
Proof.
  intros pl B L. pose proof (check_len_25 pl L) as WL. pose proof (length_25 _ WL) as U.
  pose proof (enc_text_len p58 p58_ok (with_check dsha pl) ltac:(apply with_check_ok; auto) ltac:(lia)) as U2.
  change (enc_text p58 (with_check dsha pl)) with (text58check dsha pl) in U2. lia.
Qed.
Lemma from_check_long : forall pl, bytes_ok pl -> len pl = 21 -> 33 <= len (text58check dsha pl) ->
  fromBase58Check dsha (text58check dsha pl) (zeros 21) = (21, pl).
Proof.
  intros pl B L H. pose proof (check_len_25 pl L) as WL.
  rewrite (fromBase58Check_of_decode dsha dsha_len (text58check dsha pl) pl (zeros 21)); auto.
  - rewrite L. f_equal. rewrite skipn_all2; [apply app_nil_r|]. unfold zeros. rewrite repeat_length. unfold len in L. lia.
  - rewrite len_zeros. lia.
  - apply base58_roundtrip_gen.
    + apply with_check_ok; auto.
    + lia.
    + assert (ZC : (zero_count (with_check dsha pl) <= length (with_check dsha pl))%nat) by apply count_while_le. unfold len in WL. lia.
    + fold (text58check dsha pl). rewrite WL. clear - H. dlia.
    + rewrite WL, len_app, !len_zeros. lia.
Qed.
Lemma from_check_short : forall pl, bytes_ok pl -> len pl = 21 -> len (text58check dsha pl) < 33 ->
  fst (fromBase58Check dsha (text58check dsha pl) (zeros 21)) <> 21.
Proof.
  intros pl B L H. pose proof (check_len_25 pl L) as WL.
  assert (F : fst (fromBase58 (text58check dsha pl) (zeros 21 ++ zeros 4)) < 25).
  { rewrite <- WL. apply base58_lossy; [apply with_check_ok; auto|lia|]. fold (text58check dsha pl). rewrite WL. pose proof (len_nonneg _ (text58check dsha pl)). clear - H H0. dlia. }
  unfold fromBase58Check. destruct (fromBase58 _ _) as [l arr]. cbn [fst] in F. destruct (l <? 4); [cbn [fst]; lia|].
  destruct (list_eq_dec _ _ _); cbn [fst]; lia.
Qed.
Lemma long_text : forall p h, p <> 0 -> bytes_ok (p :: h) -> len h = 20 -> 33 <= len (text58check dsha (p :: h)).
Proof.
  intros p h Hp B L. assert (WL : len (with_check dsha (p :: h)) = 25) by (apply check_len_25; rewrite len_cons; lia).
  pose proof (dec_size_nozero p58 p58_ok (with_check dsha (p :: h)) ltac:(apply with_check_ok; auto) ltac:(lia)) as D.
  assert (Z0 : zero_count (with_check dsha (p :: h)) = O) by (unfold with_check, zero_count; cbn [app count_while]; destruct (Z.eqb_spec p 0); [lia|auto]).
  specialize (D Z0). rewrite (dec_size_val p58 p58_ok) in D by (try (apply with_check_ok; auto); lia). rewrite WL in D.
  change (enc_text p58 (with_check dsha (p :: h))) with (text58check dsha (p :: h)) in D. cbn [bp_dnum bp_dden p58] in D. 
  pose proof (len_nonneg _ (text58check dsha (p :: h))). clear - D H. dlia.
Qed.
Lemma few_zeros : forall h, bytes_ok h -> len h = 20 -> firstn 2 h <> [0; 0] -> 33 <= len (text58check dsha (0 :: h)).
Proof.
  intros h B L H. assert (B' : bytes_ok (0 :: h)) by (constructor; [unfold byte_ok; lia|auto]).
  destruct (Z.le_gt_cases 33 (len (text58check dsha (0 :: h)))) as [|G]; [auto|exfalso].
  apply (from_check_short (0 :: h)); auto; [rewrite len_cons; lia|].
  rewrite (base58check_roundtrip_21 dsha dsha_len dsha_ok (0 :: h) (zeros 21)); auto; [rewrite len_cons; lia| |rewrite len_zeros; lia].
  destruct h as [|a [|b h]]; [rewrite len_nil in L; lia|rewrite len_cons, len_nil in L; lia|].
  unfold zero_count. cbn [count_while]. change (0 =? 0) with true. cbv iota. destruct (Z.eqb_spec a 0); [|lia]. destruct (Z.eqb_spec b 0); [|lia]. subst. cbn in H. congruence.
Qed.

Definition holding (s : script) (data : list Z) : script :=
  mkScript data (len data) (sc_lenLen (script_clear s)) (sc_status (script_clear s)) (sc_parsed (script_clear s)).
Definition of58 (p : Z) (h : list Z) : list Z := if (p =? 0) || (p =? 111) then p2pkh_script h else p2sh_script h.
Lemma read58 : forall s p h t, p = 0 \/ p = 5 \/ p = 111 \/ p = 196 -> bytes_ok h -> len h = 20 -> base58check_text dsha (p :: h) t ->
  script_fromAddress dsha s t = Ok (if 33 <=? len t then holding s (of58 p h) else script_clear s).
Proof.
  intros s p h t HP B L H. assert (B' : bytes_ok (p :: h)) by (constructor; [unfold byte_ok; lia|auto]). assert (L' : len (p :: h) = 21) by (rewrite len_cons; lia).
  assert (F : exists c u, t = c :: u /\ In c (chars "123mn")).
  { apply (address_first p (h ++ firstn 4 (dsha (p :: h)))); auto.
    - apply bytes_ok_app. split; [auto|]. apply bytes_ok_firstn. auto.
    - rewrite len_app. unfold len at 2. rewrite firstn_length, dsha_len. change (Z.of_nat (Nat.min 4 32)) with 4. lia. }
  destruct F as (c & u & ET & I). unfold script_fromAddress. rewrite ET, no_prefix, <- ET by auto.
  pose proof (check_text _ _ B' L' H) as E. clear c u ET I. pose proof (check_text_len _ B' L') as U. rewrite <- E in U. 
  replace (len t >? 100) with false by (symmetry; rewrite Z.gtb_ltb; apply Z.ltb_ge; lia).
  destruct (Z.leb_spec 33 (len t)) as [G|G]; rewrite E in *.
  - rewrite from_check_long by auto. change (negb (21 =? 21)) with false. cbv iota. cbn [nth skipn].
    rewrite firstn_all2 by (unfold len in L; lia). unfold holding, of58.
    destruct HP as [-> | [-> | [-> | ->]]]; reflexivity.
  - pose proof (from_check_short _ B' L' G) as N. destruct (fromBase58Check dsha _ (zeros 21)) as [l addr]. cbn [fst] in N.
    apply Z.eqb_neq in N. rewrite N. reflexivity.
Qed.
End Check.

(** * Reading bech32 addresses *)
Lemma starts_prefix : forall p a, starts_with p (p ++ a) = true.
Proof. intros. unfold starts_with. rewrite firstn_app_len by auto. destruct (list_eq_dec _ _ _); congruence. Qed.
Lemma starts_spec : forall p a, starts_with p a = true -> exists r, a = p ++ r.
Proof. intros p a H. unfold starts_with in H. destruct (list_eq_dec _ _ _) as [E|]; [|discriminate]. exists (skipn (length p) a). rewrite <- E at 1. symmetry. apply firstn_skipn. Qed.
(** Only the first two prefixes are ever found: Regtest's starts with Mainnet's. *)
Lemma found : forall a, find (fun n => starts_with (n_bech32 n) a) networks =
  if starts_with (chars "bc") a then Some Mainnet else if starts_with (chars "tb") a then Some Testnet else None.
Proof.
  intros a. unfold networks, Signet. cbn [find]. change (n_bech32 Mainnet) with (chars "bc"). change (n_bech32 Testnet) with (chars "tb"). change (n_bech32 Regtest) with (chars "bcrt").
  destruct (starts_with (chars "bc") a) eqn:E; [auto|]. destruct (starts_with (chars "tb") a) eqn:E2; [auto|].
  destruct (starts_with (chars "bcrt") a) eqn:E3; [|auto]. exfalso. apply starts_spec in E3 as (r & ->).
  change (chars "bcrt" ++ r) with (chars "bc" ++ (chars "rt" ++ r)) in E. rewrite starts_prefix in E. discriminate.
Qed.
Lemma found_bc : forall a, find (fun n => starts_with (n_bech32 n) (chars "bc" ++ a)) networks = Some Mainnet.
Proof. intros. rewrite found, starts_prefix. auto. Qed.
Lemma found_tb : forall a, find (fun n => starts_with (n_bech32 n) (chars "tb" ++ a)) networks = Some Testnet.
Proof. intros. rewrite found, starts_prefix. reflexivity. Qed.
Definition two (p : list Z) (n : network) : Prop := (p = chars "bc" /\ n = Mainnet) \/ (p = chars "tb" /\ n = Testnet).
Lemma found_two : forall p n a, two p n -> find (fun n => starts_with (n_bech32 n) (p ++ a)) networks = Some n /\ n_bech32 n = p.
Proof. intros p n a [[-> ->]|[-> ->]]; [rewrite found_bc|rewrite found_tb]; auto. Qed.
Lemma two_hrp : forall p n, two p n -> hrp_ok p /\ len p = 2.
Proof. intros p n [[-> ->]|[-> ->]]; (split; [split; [|vm_compute; split; discriminate]|reflexivity]); (constructor; [|constructor; [|constructor]]; (split; [cbn; lia|reflexivity])). Qed.

Lemma text_shape : forall hrp ver prog t, segwit_text hrp ver prog t -> exists r, t = hrp ++ r /\ len t = len hrp + 8 + (8 * len prog + 4) / 5.
Proof.
  intros hrp ver prog t (gs & ck & G & V & L & C & ->). exists (chars "1" ++ map symbol (ver :: gs ++ ck)). split; [reflexivity|].
  unfold bech32_text. rewrite !len_app, len_map, len_cons, len_app, L. rewrite (in_groups_len _ _ G). change (len (chars "1")) with 1. lia.
Qed.
Lemma low1_symbol : forall v, value_ok v -> low1 (symbol v) = symbol v.
Proof. intros v H. unfold low1. destruct (symbol_range v H) as (_ & _ & ->). auto. Qed.
Lemma lower_id : forall s, existsb is_upper s = false -> to_lower s = s.
Proof.
  induction s as [|a s IH]; intros H; [auto|]. cbn [existsb] in H. apply orb_false_elim in H as [H1 H2].
  cbn [to_lower map]. rewrite H1. f_equal. apply IH. auto.
Qed.
Lemma text_lower : forall hrp vals, Forall hrp_char hrp -> Forall value_ok vals -> existsb is_upper (bech32_text hrp vals) = false.
Proof.
  intros hrp vals H V. unfold bech32_text. rewrite !existsb_app. apply orb_false_intro; [|apply orb_false_intro; [reflexivity|]].
  - clear V. induction H as [|x l [_ H]]; [auto|]. cbn [existsb]. rewrite H. auto.
  - clear H. induction V as [|x l H]; [auto|]. cbn [map existsb]. destruct (symbol_range x H) as (_ & _ & ->). auto.
Qed.
Lemma segwit_lower : forall hrp ver prog t, hrp_ok hrp -> program_ok ver prog -> segwit_text hrp ver prog t -> existsb is_upper t = false.
Proof.
  intros hrp ver prog t [H _] (_ & HV & _) (gs & ck & G & V & L & C & ->). apply text_lower; [auto|]. constructor; [unfold value_ok; lia|]. apply Forall_app. split; [apply G|auto].
Qed.

Section Segwit.
Variable dsha : list Z -> list Z.
Lemma read_segwit : forall s p n ver prog t, two p n -> program_ok ver prog -> segwit_text p ver prog t ->
  script_fromAddress dsha s t = if 32 <? len prog then UB else Ok (holding s ([ver; len prog] ++ prog)).
Proof.
  intros s p n ver prog t TW PO T. destruct (two_hrp _ _ TW) as [HP LP]. pose proof (segwit_lower _ _ _ _ HP PO T) as LO.
  destruct (text_shape _ _ _ _ T) as (r & ET & LT). destruct PO as (PB & PV & PL & P0).
  assert (L100 : len t <= 90) by (rewrite LT, LP; clear - PL; dlia).
  unfold script_fromAddress. replace (len t >? 100) with false by (symmetry; rewrite Z.gtb_ltb; apply Z.ltb_ge; lia).
  rewrite ET. destruct (found_two p n r TW) as [-> HN]. rewrite <- ET, HN.
  assert (MC : mixed_case t = false) by (unfold mixed_case; rewrite LO; auto).
  assert (TT : segwit_text p ver prog (to_lower t)) by (rewrite lower_id; auto).
  destruct (segwit_forward p ver prog t (zeros 32) HP (conj PB (conj PV (conj PL P0))) TT MC) as [F1 F2]. rewrite len_zeros in F1, F2.
  destruct (Z.ltb_spec 32 (len prog)) as [G|G].
  - rewrite F2 by lia. reflexivity.
  - rewrite F1 by lia. cbn [bind]. unfold holding.
    replace (Z.to_nat (len prog)) with (length prog) by (unfold len; lia). rewrite firstn_app_len by auto.
    rewrite !u8_id by lia. reflexivity.
Qed.

(** What is refused leaves an empty script. *)
Lemma read_bech : forall s p n r, two p n -> len (p ++ r) <= 100 ->
  script_fromAddress dsha s (p ++ r) = let! x := segwit_addr_decode (zeros 32) p (p ++ r) in
    match x with None => Ok (script_clear s) | Some (ver, prog, l) => Ok (holding s ([u8 ver; u8 l] ++ firstn (Z.to_nat l) prog)) end.
Proof.
  intros s p n r TW L. unfold script_fromAddress. destruct (found_two p n r TW) as [-> HN]. rewrite HN.
  replace (len (p ++ r) >? 100) with false by (symmetry; rewrite Z.gtb_ltb; apply Z.ltb_ge; lia).
  destruct (segwit_addr_decode _ _ _) as [[[[v w] l]|]|]; reflexivity.
Qed.
Lemma last_one : forall pre suf hrp vals, Forall value_ok vals -> ~ In 49 suf -> pre ++ 49 :: suf = bech32_text hrp vals -> pre = hrp /\ suf = map symbol vals.
Proof.
  intros pre suf hrp vals V N E. unfold bech32_text in E. change (chars "1" ++ map symbol vals) with (49 :: map symbol vals) in E.
  assert (N2 : ~ In 49 (map symbol vals)).
  { intros I. apply in_map_iff in I as (v & E2 & I). rewrite Forall_forall in V. destruct (symbol_range v (V v I)) as (_ & H & _). congruence. }
  revert hrp E. induction pre as [|a pre IH]; intros [|b hrp] E; cbn [app] in E.
  - injection E as ->. auto.
  - injection E as <- E. exfalso. apply N. rewrite E. apply in_or_app. right. left. auto.
  - injection E as -> E. exfalso. apply N2. rewrite <- E. apply in_or_app. right. left. auto.
  - injection E as -> E. destruct (IH _ E) as [-> ->]. auto.
Qed.
(** Another human-readable part. *)
Lemma other_hrp : forall s p n hrp vals r, two p n -> Forall hrp_char hrp -> Forall value_ok vals -> bech32_text hrp vals = p ++ r -> hrp <> p -> len (p ++ r) <= 84 ->
  script_fromAddress dsha s (bech32_text hrp vals) = Ok (script_clear s).
Proof.
  intros s p n hrp vals r TW HC V E N L. rewrite E, (read_bech s p n r TW) by lia.
  assert (U : to_lower (p ++ r) = p ++ r) by (rewrite <- E; apply lower_id, text_lower; auto).
  destruct (segwit_safe_gen (zeros 32) p (p ++ r)) as (x & X); [|left; lia|].
  - intros pre suf E2 N2 E3 _ SUM. exfalso. rewrite <- E in E2. destruct (last_one pre suf hrp vals V N2 (eq_sym E2)) as [-> ->].
    apply N. rewrite <- E3. symmetry. apply lower_id. clear - HC. induction HC as [|x l [_ H]]; [auto|]. cbn [existsb]. rewrite H. auto.
  - rewrite X. cbn [bind]. destruct x as [[[ver w] l]|]; [exfalso|auto].
    destruct (segwit_inv _ _ _ _ _ _ X) as (prog & _ & _ & PO & HP & (gs & ck & G & V2 & L2 & C2 & E2) & _). rewrite U, <- E in E2.
    apply N. eapply proj1. apply (last_one hrp (map symbol vals) p (ver :: gs ++ ck)).
    + constructor; [destruct PO as (_ & ? & _); unfold value_ok; lia|]. apply Forall_app. split; [apply G|auto].
    + intros I. apply in_map_iff in I as (v & E4 & I). rewrite Forall_forall in V. destruct (symbol_range v (V v I)) as (_ & H & _). congruence.
    + exact E2.
Qed.
Lemma other_checksum : forall s p n ver prog t, two p n -> program_ok ver prog -> bech32m_text p ver prog t ->
  script_fromAddress dsha s t = Ok (script_clear s).
Proof.
  intros s p n ver prog t TW PO (gs & ck & G & V & L & C & ->).
  destruct (two_hrp _ _ TW) as [HP LP]. pose proof PO as (PB & PV & PL & P0). pose proof (in_groups_len _ _ G) as LG.
  assert (VV : Forall value_ok (ver :: gs ++ ck)) by (constructor; [unfold value_ok; lia|]; apply Forall_app; split; [apply G|auto]).
  set (r := chars "1" ++ map symbol (ver :: gs ++ ck)). change (bech32_text p (ver :: gs ++ ck)) with (p ++ r).
  assert (LT : len (p ++ r) = 10 + len gs) by (unfold r; rewrite !len_app, len_map, len_cons, len_app, L, LP; change (len (chars "1")) with 1; lia).
  assert (LG2 : len gs <= 64) by (rewrite LG; clear - PL; dlia).
  rewrite (read_bech s p n r TW) by lia.
  assert (U : to_lower (p ++ r) = p ++ r) by (apply lower_id; apply (text_lower p (ver :: gs ++ ck)); [apply HP|auto]).
  destruct (segwit_safe_gen (zeros 32) p (p ++ r)) as (x & X); [|left; lia|].
  - intros pre suf E2 N2 E3 _ SUM. destruct (last_one pre suf p (ver :: gs ++ ck) VV N2 (eq_sym E2)) as [-> ->]. exfalso. unfold sum_of in SUM. rewrite E3 in SUM.
    destruct (values_symbols (ver :: gs ++ ck) (map symbol (ver :: gs ++ ck)) VV) as [E4 _].
    { apply lower_id. pose proof (text_lower p _ (proj1 HP) VV) as TL. unfold bech32_text in TL. rewrite !existsb_app in TL.
      apply orb_false_elim in TL as [_ TL]. apply orb_false_elim in TL as [_ TL]. exact TL. }
    rewrite E4 in SUM. apply checksum_fold in SUM. unfold checksum_ok in SUM. rewrite C in SUM. discriminate.
  - rewrite X. cbn [bind]. destruct x as [[[ver' w] l]|]; [exfalso|auto].
    destruct (segwit_inv _ _ _ _ _ _ X) as (prog' & _ & _ & PO' & _ & (gs' & ck' & G' & V' & L' & C' & E') & _). rewrite U in E'.
    assert (VV' : Forall value_ok (ver' :: gs' ++ ck')) by (constructor; [destruct PO' as (_ & ? & _); unfold value_ok; lia|]; apply Forall_app; split; [apply G'|auto]).
    destruct (last_one p (map symbol (ver :: gs ++ ck)) p (ver' :: gs' ++ ck') VV') as [_ E2].
    { intros I. apply in_map_iff in I as (v & E4 & I). rewrite Forall_forall in VV. destruct (symbol_range v (VV v I)) as (_ & H & _). congruence. }
    { exact E'. }
    assert (E3 : ver :: gs ++ ck = ver' :: gs' ++ ck').
    { clear - VV VV' E2. generalize dependent (ver :: gs ++ ck). generalize dependent (ver' :: gs' ++ ck'). intros b B a A E. revert b B E. induction A as [|x a X A IH]; intros [|y b] B E; try discriminate; auto.
      inversion B; subst. cbn [map] in E. injection E as E1 E2. f_equal; [apply symbol_inj; auto|auto]. }
    unfold checksum_ok in C'. rewrite <- E3, C in C'. discriminate.
Qed.
End Segwit.
