(** Statements on addresses. *)
From Coq Require Import Lia.
From Verif Require Import Base.Bytes Base.BytesFacts Model.Conversion Model.Stream Model.Script Model.Tx Model.Sign Model.Bech32 Model.Networks Model.Address
  Spec.Codecs Spec.Bech32 Spec.Objects Spec.Sighash Spec.Address Proof.BaseN Proof.Base58 Proof.BechAddr Proof.BechSegwit Proof.SignFacts Proof.AddrFacts.
Open Scope Z_scope.

(** * Writing *)
Lemma strlen_text : forall t r, Forall (fun c => c <> 0) t -> strlen (t ++ 0 :: r) = len t.
Proof.
  intros t r H. unfold strlen, len. f_equal. induction H as [|x l H F IH]; [reflexivity|]. cbn [app count_while length]. apply Z.eqb_neq in H. rewrite H. cbn [negb]. congruence.
Qed.
Lemma copy_text : forall t r buffer, Forall (fun c => c <> 0) t ->
  copy_out buffer (t ++ 0 :: r) = if len t <=? len buffer then (len t, t ++ zeros (length buffer - length t)) else (0, zeros (length buffer)).
Proof.
  intros t r buffer H. unfold copy_out. rewrite strlen_text by auto. rewrite Z.gtb_ltb, Z.leb_antisym.
  destruct (Z.ltb_spec (len buffer) (len t)); [auto|]. cbn [negb]. replace (Z.to_nat (len t)) with (length t) by (unfold len; lia).
  rewrite firstn_app_len by auto. auto.
Qed.
Lemma base58_nonzero : forall d, 0 <= d < 58 -> nth (Z.to_nat d) base58_alphabet 0 <> 0.
Proof.
  intros d H E. assert (negb (nth (Z.to_nat d) base58_alphabet 0 =? 0) = true) as X by (apply (zrange_sweep 58 (fun d => negb (nth (Z.to_nat d) base58_alphabet 0 =? 0))); [vm_compute; reflexivity|exact H]).
  rewrite E in X. discriminate.
Qed.
Lemma base_text_nonzero : forall bs t, base_text 58 base58_alphabet bs t -> Forall (fun c => c <> 0) t.
Proof.
  intros bs t (z & r & d & _ & _ & D & _ & _ & ->). apply Forall_app. split.
  - apply Forall_forall. intros x I. apply repeat_spec in I. subst. vm_compute. congruence.
  - apply Forall_forall. intros x I. apply in_map_iff in I as (v & <- & I). unfold digits_ok in D. rewrite Forall_forall in D. apply base58_nonzero. apply D. auto.
Qed.
Lemma segwit_nonzero : forall hrp ver prog t, hrp_ok hrp -> program_ok ver prog -> segwit_text hrp ver prog t -> Forall (fun c => c <> 0) t.
Proof.
  intros hrp ver prog t [H _] (_ & PV & _) (gs & ck & G & V & L & C & ->). unfold bech32_text. apply Forall_app. split; [|apply Forall_app; split].
  - eapply Forall_impl; [|exact H]. intros a [A _]. lia.
  - change (chars "1") with [49]. constructor; [lia|constructor].
  - apply Forall_forall. intros x I. apply in_map_iff in I as (v & <- & I).
    assert (VV : Forall value_ok (ver :: gs ++ ck)) by (constructor; [unfold value_ok; lia|]; apply Forall_app; split; [apply G|auto]).
    rewrite Forall_forall in VV. destruct (symbol_range v (VV v I)) as (R & _). lia.
Qed.

Lemma sh_type : forall s h, length h = 20%nat -> script_holds s (p2sh_script h) -> script_type_of s = P2SH.
Proof.
  intros s h L H. unfold script_type_of. rewrite !(at_nth _ _ _ H). destruct H as (_ & -> & _ & _). unfold p2sh_script. cut_list 20 h. reflexivity.
Qed.
Lemma wsh_type : forall s h, length h = 32%nat -> script_holds s (witness_script 0 h) -> script_type_of s = P2WSH.
Proof.
  intros s h L H. unfold script_type_of. rewrite !(at_nth _ _ _ H). destruct H as (_ & -> & _ & _). unfold witness_script. cut_list 32 h. reflexivity.
Qed.

Section Hash.
Variable dsha : list Z -> list Z.
Hypothesis dsha_len : forall m, length (dsha m) = 32%nat.
Hypothesis dsha_ok : forall m, bytes_ok (dsha m).

Lemma write58 : forall p h out, byte_ok p -> bytes_ok h -> len h = 20 -> 35 <= len out ->
  exists text, base58check_text dsha (p :: h) text /\ len text <= 35 /\ toBase58Check dsha (p :: h) out = (len text, text ++ zeros (length out - length text)).
Proof.
  intros p h out HP B L LO. assert (B' : bytes_ok (p :: h)) by (constructor; auto). assert (L' : len (p :: h) = 21) by (rewrite len_cons; lia).
  exists (text58check dsha (p :: h)). split; [|split].
  - apply (enc_text_spec p58 p58_ok (with_check dsha (p :: h))); [apply with_check_ok; auto|rewrite with_check_len by auto; lia].
  - apply check_text_len; auto.
  - apply toBase58Check_spec; auto; [lia|]. pose proof (length_25 (with_check dsha (p :: h)) ltac:(apply check_len_25; auto)). lia.
Qed.
Lemma write58_copy : forall p h buffer, byte_ok p -> bytes_ok h -> len h = 20 ->
  exists text, base58check_text dsha (p :: h) text /\
    copy_out buffer (snd (toBase58Check dsha (p :: h) (zeros 40))) = if len text <=? len buffer then (len text, text ++ zeros (length buffer - length text)) else (0, zeros (length buffer)).
Proof.
  intros p h buffer HP B L. destruct (write58 p h (zeros 40) HP B L) as (t & T & LT & ->); [rewrite len_zeros; lia|]. exists t. split; [auto|]. cbn [snd].
  replace (length (zeros 40) - length t)%nat with (S (39 - length t)) by (unfold zeros; rewrite repeat_length; unfold len in LT; lia).
  change (zeros (S (39 - length t))) with (0 :: zeros (39 - length t)). apply copy_text. eapply base_text_nonzero. exact T.
Qed.
Lemma hrp_chain : forall n c, chain_of n c -> n_bech32 n = ch_hrp c /\ n_p2pkh n = ch_pkh c /\ n_p2sh n = ch_sh c /\ hrp_ok (ch_hrp c) /\ len (ch_hrp c) <= 4 /\ byte_ok (ch_pkh c) /\ byte_ok (ch_sh c).
Proof.
  intros n c H. assert (E : n_bech32 n = ch_hrp c /\ n_p2pkh n = ch_pkh c /\ n_p2sh n = ch_sh c) by (destruct H as [[-> ->]|[[-> ->]|[[-> ->]|[-> ->]]]]; auto).
  destruct E as (E1 & E2 & E3). split; [auto|]. split; [auto|]. split; [auto|].
  destruct H as [[_ ->]|[[_ ->]|[[_ ->]|[_ ->]]]]; (split; [split; [|vm_compute; split; discriminate]|split; [vm_compute; discriminate|split; unfold byte_ok; cbn; lia]]);
    cbn; repeat (apply Forall_cons; [split; [lia|reflexivity]|]); apply Forall_nil.
Qed.
Lemma write_segwit : forall n c h out, chain_of n c -> bytes_ok h -> len h = 20 \/ len h = 32 -> 76 <= len out ->
  exists text, segwit_text (ch_hrp c) 0 h text /\ Forall (fun c => c <> 0) text /\ len text < 76 /\ segwit_addr_encode out (n_bech32 n) 0 h = Ok (1, text ++ 0 :: skipn (length text + 1) out).
Proof.
  intros n c h out HC B L LO. destruct (hrp_chain _ _ HC) as (-> & _ & _ & HP & L4 & _).
  assert (PO : program_ok 0 h) by (split; [auto|]; split; [lia|]; split; [lia|auto]).
  assert (LL : len (ch_hrp c) + 8 + (8 * len h + 4) / 5 < 76) by (clear - L L4; dlia).
  destruct (segwit_encode_ok out (ch_hrp c) 0 h) as (t & T & E); [apply HP|lia|auto|lia|]. exists t. split; [auto|]. split; [eapply segwit_nonzero; eauto|]. split; [|auto].
  destruct (text_shape _ _ _ _ T) as (_ & _ & LT). lia.
Qed.

Lemma address_text : forall n c s bs buffer, chain_of n c -> script_holds s bs -> standard_script bs ->
  exists text, address_of dsha c bs text /\
    script_address dsha s buffer n = Ok (if len text <=? len buffer then (len text, text ++ zeros (length buffer - length text)) else (0, zeros (length buffer))).
Proof.
  intros n c s bs buffer HC H (h & B & K). destruct (hrp_chain _ _ HC) as (E1 & E2 & E3 & HP & L4 & BP & BS).
  assert (A : sc_arr s = bs) by apply H. unfold script_address. destruct K as [(L & [K|[K|K]])|(L & K)].
  - assert (LN : length h = 20%nat) by (unfold len in L; lia). rewrite (proj2 (pkh_type s bs H)) by (exists h; auto).
    assert (EH : firstn 20 (skipn 3 (sc_arr s)) = h) by (rewrite A, K; unfold p2pkh_script; cbn [app skipn]; apply firstn_app_len; auto).
    rewrite EH, E2. destruct (write58_copy (ch_pkh c) h buffer BP B L) as (t & T & ->). exists t. split; [|auto]. subst bs. apply addr_pkh; auto.
  - assert (LN : length h = 20%nat) by (unfold len in L; lia). subst bs. rewrite (sh_type s h LN H).
    assert (EH : firstn 20 (skipn 2 (sc_arr s)) = h) by (rewrite A; unfold p2sh_script; cbn [app skipn]; apply firstn_app_len; auto).
    rewrite EH, E3. destruct (write58_copy (ch_sh c) h buffer BS B L) as (t & T & ->). exists t. split; [|auto]. apply addr_sh; auto.
  - assert (LN : length h = 20%nat) by (unfold len in L; lia). rewrite (proj2 (wpkh_type s bs H)) by (exists h; split; [auto|]; rewrite K; unfold witness_script; change (0 =? 0) with true; rewrite L; reflexivity).
    rewrite !(at_nth _ _ _ H). assert (EB : bs = 0 :: 20 :: h) by (rewrite K; unfold witness_script; change (0 =? 0) with true; rewrite L; reflexivity).
    assert (EH : firstn (Z.to_nat (nth (Z.to_nat 1) bs (-1))) (skipn 2 (sc_arr s)) = h) by (rewrite A, EB; apply firstn_all2; change (nth (Z.to_nat 1) (0 :: 20 :: h) (-1)) with 20; change (nth (Z.to_nat 1) (0 :: 32 :: h) (-1)) with 32; change (skipn 2 (0 :: 20 :: h)) with h;  change (skipn 2 (0 :: 32 :: h)) with h; lia).
    rewrite EH. assert (E0 : nth (Z.to_nat 0) bs (-1) = 0) by (rewrite EB; reflexivity). rewrite E0.
    destruct (write_segwit n c h (zeros 76) HC B (or_introl L) ltac:(rewrite len_zeros; lia)) as (t & T & NZ & L76 & ->). cbn [bind snd].
    exists t. split; [rewrite K; apply addr_wpkh; auto|]. rewrite copy_text by auto. auto.
  - assert (LN : length h = 32%nat) by (unfold len in L; lia). assert (EB : bs = 0 :: 32 :: h) by (rewrite K; unfold witness_script; change (0 =? 0) with true; rewrite L; reflexivity).
    rewrite K in H. rewrite (wsh_type s h LN H). rewrite <- K in H. rewrite !(at_nth _ _ _ H).
    assert (EH : firstn (Z.to_nat (nth (Z.to_nat 1) bs (-1))) (skipn 2 (sc_arr s)) = h) by (rewrite A, EB; apply firstn_all2; change (nth (Z.to_nat 1) (0 :: 20 :: h) (-1)) with 20; change (nth (Z.to_nat 1) (0 :: 32 :: h) (-1)) with 32; change (skipn 2 (0 :: 20 :: h)) with h;  change (skipn 2 (0 :: 32 :: h)) with h; lia).
    rewrite EH. assert (E0 : nth (Z.to_nat 0) bs (-1) = 0) by (rewrite EB; reflexivity). rewrite E0.
    destruct (write_segwit n c h (zeros 76) HC B (or_intror L) ltac:(rewrite len_zeros; lia)) as (t & T & NZ & L76 & ->). cbn [bind snd].
    exists t. split; [rewrite K; apply addr_wsh; auto|]. rewrite copy_text by auto. auto.
Qed.

Lemma other_type : forall s buffer n, (forall t, In t [P2PKH; P2SH; P2WPKH; P2WSH] -> script_type_of s <> t) -> script_address dsha s buffer n = Ok (0, zeros (length buffer)).
Proof.
  intros s buffer n H. unfold script_address. destruct (script_type_of s) eqn:E; auto; exfalso; (eapply H; [|reflexivity]; cbn; auto).
Qed.

(** * Round trip *)
Lemma holding_ok : forall s data, bytes_ok data -> len data < 2^31 -> script_holds (holding s data) data.
Proof. intros. unfold holding, script_holds. cbn [sc_arr sc_len]. auto. Qed.
Lemma standard_bytes : forall bs, standard_script bs -> bytes_ok bs /\ len bs <= 34.
Proof.
  intros bs (h & B & K). assert (BB : forall a b, forallb (fun b => (0 <=? b) && (b <? 256)) a = true -> forallb (fun b => (0 <=? b) && (b <? 256)) b = true -> bytes_ok (a ++ h ++ b)).
  { intros a b X Y. apply bytes_ok_app. split; [apply bytes_ok_bool; auto|]. apply bytes_ok_app. split; [auto|]. apply bytes_ok_bool. auto. }
  destruct K as [(L & [-> | [-> | ->]])|(L & ->)]; (split; [|unfold p2pkh_script, p2sh_script, witness_script; rewrite !len_app, L; vm_compute; discriminate]).
  - apply BB; reflexivity.
  - apply BB; reflexivity.
  - unfold witness_script. rewrite L. rewrite <- (app_nil_r h). apply BB; reflexivity.
  - unfold witness_script. rewrite L. rewrite <- (app_nil_r h). apply BB; reflexivity.
Qed.
Lemma address_standard : forall c bs t, address_of dsha c bs t -> standard_script bs.
Proof. intros c bs t H. destruct H; exists h; auto 6. Qed.
Lemma of58_pkh : forall p h, p = 0 \/ p = 111 -> of58 p h = p2pkh_script h. Proof. intros p h [-> | ->]; reflexivity. Qed.
Lemma of58_sh : forall p h, p = 5 \/ p = 196 -> of58 p h = p2sh_script h. Proof. intros p h [-> | ->]; reflexivity. Qed.

Lemma segwit_back : forall s p n h t, two p n -> bytes_ok h -> len h = 20 \/ len h = 32 -> segwit_text p 0 h t ->
  script_fromAddress dsha s t = Ok (holding s (witness_script 0 h)).
Proof.
  intros s p n h t TW B L T. assert (PO : program_ok 0 h) by (split; [auto|]; split; [lia|]; split; [lia|auto]).
  rewrite (read_segwit dsha s p n 0 h t TW PO T). destruct (Z.ltb_spec 32 (len h)); [lia|]. reflexivity.
Qed.
Lemma address_back : forall n c s bs t, chain_of n c -> address_of dsha c bs t ->
  (c = main_chain -> forall h, bs = p2pkh_script h -> 33 <= len t) ->
  (c = reg_chain -> forall h, bs <> witness_script 0 h) ->
  script_fromAddress dsha s t = Ok (holding s bs).
Proof.
  intros n c s bs t HC H C1 C2. destruct H as [h t B L T|h t B L T|h t B L T|h t B L T].
  - rewrite (read58 dsha dsha_len dsha_ok s (ch_pkh c) h t); auto; [|destruct HC as [[_ ->]|[[_ ->]|[[_ ->]|[_ ->]]]]; cbn; auto].
    rewrite of58_pkh by (destruct HC as [[_ ->]|[[_ ->]|[[_ ->]|[_ ->]]]]; cbn; auto).
    assert (G : 33 <= len t).
    { destruct HC as [[_ ->]|HC]; [apply (C1 eq_refl h); auto|]. assert (P : ch_pkh c = 111) by (destruct HC as [[_ ->]|[[_ ->]|[_ ->]]]; auto).
      rewrite P in T. rewrite (check_text dsha dsha_len dsha_ok (111 :: h) t); auto; [|constructor; [unfold byte_ok; lia|auto]|rewrite len_cons; lia].
      apply (long_text dsha dsha_len dsha_ok); auto; [lia|constructor; [unfold byte_ok; lia|auto]]. }
    destruct (Z.leb_spec 33 (len t)); [auto|lia].
  - assert (P : ch_sh c = 5 \/ ch_sh c = 196) by (destruct HC as [[_ ->]|[[_ ->]|[[_ ->]|[_ ->]]]]; auto).
    rewrite (read58 dsha dsha_len dsha_ok s (ch_sh c) h t); auto; [|lia]. rewrite of58_sh by auto.
    assert (B' : bytes_ok (ch_sh c :: h)) by (constructor; [unfold byte_ok; lia|auto]).
    assert (G : 33 <= len t).
    { rewrite (check_text dsha dsha_len dsha_ok (ch_sh c :: h) t); auto; [|rewrite len_cons; lia]. apply (long_text dsha dsha_len dsha_ok); auto. lia. }
    destruct (Z.leb_spec 33 (len t)); [auto|lia].
  - destruct HC as [[-> ->]|[[-> ->]|[[-> ->]|[-> ->]]]].
    + apply (segwit_back s (chars "bc") Mainnet); auto. left. auto.
    + apply (segwit_back s (chars "tb") Testnet); auto. right. auto.
    + exfalso. apply (C2 eq_refl h). auto.
    + apply (segwit_back s (chars "tb") Testnet); auto. right. auto.
  - destruct HC as [[-> ->]|[[-> ->]|[[-> ->]|[-> ->]]]].
    + apply (segwit_back s (chars "bc") Mainnet); auto. left. auto.
    + apply (segwit_back s (chars "tb") Testnet); auto. right. auto.
    + exfalso. apply (C2 eq_refl h). auto.
    + apply (segwit_back s (chars "tb") Testnet); auto. right. auto.
Qed.
Lemma p2pkh_inj : forall h k, len h = 20 -> p2pkh_script h = p2pkh_script k -> h = k.
Proof. intros h k L E. unfold p2pkh_script in E. cbn [app] in E. injection E as E. apply app_inv_tail in E. auto. Qed.

Lemma pkh_address : forall c h t, address_of dsha c (p2pkh_script h) t -> bytes_ok h /\ len h = 20 /\ base58check_text dsha (ch_pkh c :: h) t.
Proof.
  intros c h t H. remember (p2pkh_script h) as bs eqn:E. destruct H as [k t B L T|k t B L T|k t B L T|k t B L T]; try discriminate.
  apply p2pkh_inj in E; auto. subst k. auto.
Qed.
Lemma address_round_trip : forall n c s bs t, chain_of n c -> address_of dsha c bs t ->
  (c = main_chain -> forall h, bs = p2pkh_script h -> firstn 2 h <> [0; 0]) ->
  (c = reg_chain -> forall h, bs <> witness_script 0 h) ->
  exists s', script_fromAddress dsha s t = Ok s' /\ script_holds s' bs.
Proof.
  intros n c s bs t HC H C1 C2. exists (holding s bs). destruct (standard_bytes bs (address_standard _ _ _ H)) as [B L]. split; [|apply holding_ok; [auto|lia]].
  apply (address_back n c); auto. intros -> h E. specialize (C1 eq_refl h E).
  subst bs. destruct (pkh_address _ _ _ H) as (BH & LH & T).
  rewrite (check_text dsha dsha_len dsha_ok (0 :: h) t); auto; [|constructor; [unfold byte_ok; lia|auto]|rewrite len_cons; lia].
  apply (few_zeros dsha dsha_len dsha_ok); auto.
Qed.

(** * What does not come back *)
Lemma short_address : forall s h t, address_of dsha main_chain (p2pkh_script h) t ->
  ((exists s', script_fromAddress dsha s t = Ok s' /\ script_holds s' (p2pkh_script h)) <-> 33 <= len t) /\
  (len t < 33 -> script_fromAddress dsha s t = Ok (script_clear s)).
Proof.
  intros s h t H. destruct (pkh_address _ _ _ H) as (B & L & T). pose proof (read58 dsha dsha_len dsha_ok s 0 h t ltac:(auto) B L T) as R.
  destruct (standard_bytes _ (address_standard _ _ _ H)) as [BB LL].
  destruct (Z.leb_spec 33 (len t)) as [G|G]; (split; [split|]); intros X; try lia.
  - rewrite R. exists (holding s (of58 0 h)). split; [auto|]. apply holding_ok; auto. change (of58 0 h) with (p2pkh_script h). lia.
  - exfalso. destruct X as (s' & E & (A & A2 & _)). rewrite R in E. injection E as <-. unfold script_clear in A, A2.
    assert (L25 : len (p2pkh_script h) = 25) by (unfold p2pkh_script; rewrite !len_app, L; reflexivity).
    destruct (Z.ltb_spec 0 (sc_len s)) as [|E0]; cbn [sc_arr sc_len] in A, A2; [discriminate|lia].
  - rewrite R. reflexivity.
Qed.
(** The address of the hash of twenty zero bytes. *)
Lemma zero_address : exists t, address_of dsha main_chain (p2pkh_script (zeros 20)) t /\ len t < 33.
Proof.
  exists (text58check dsha (0 :: zeros 20)). assert (B : bytes_ok (0 :: zeros 20)) by apply (bytes_ok_zeros 21). assert (L : len (0 :: zeros 20) = 21) by reflexivity.
  assert (WB : bytes_ok (with_check dsha (0 :: zeros 20))) by (apply with_check_ok; auto). pose proof (check_len_25 dsha dsha_len (0 :: zeros 20) L) as WL. split.
  - apply addr_pkh; [apply bytes_ok_zeros|reflexivity|]. apply (enc_text_spec p58 p58_ok (with_check dsha (0 :: zeros 20)) WB). lia.
  - pose proof (enc_text_len p58 p58_ok _ WB ltac:(lia)) as U. change (enc_text p58 (with_check dsha (0 :: zeros 20))) with (text58check dsha (0 :: zeros 20)) in U.
    unfold toBaseLength in U. destruct (enc_size_val p58 p58_ok (with_check dsha (0 :: zeros 20)) ltac:(lia)) as [EV _]. rewrite EV, WL in U. cbn [bp_enum bp_eden p58] in U.
    pose proof (count_while_le _ (fun b => b =? 0) (with_check dsha (0 :: zeros 20))) as ZC. fold (zero_count (with_check dsha (0 :: zeros 20))) in ZC.
    assert (Z21 : Z.of_nat 21 <= Z.of_nat (zero_count (with_check dsha (0 :: zeros 20)))).
    { apply inj_le. unfold with_check. change (0 :: zeros 20) with (zeros 21). unfold zero_count. rewrite count_while_app_all by reflexivity. change (length (zeros 21)) with 21%nat. lia. }
    unfold len in WL. assert (Z25 : 21 <= Z.of_nat (zero_count (with_check dsha (0 :: zeros 20))) <= 25) by lia. clear - U Z25.
    generalize dependent (Z.of_nat (zero_count (with_check dsha (0 :: zeros 20)))). intros z U Z25. dlia.
Qed.
(** Regtest. *)
Lemma regtest_refused : forall s h t, bytes_ok h -> len h = 20 \/ len h = 32 -> segwit_text (chars "bcrt") 0 h t ->
  script_fromAddress dsha s t = Ok (script_clear s).
Proof.
  intros s h t B L T. destruct (text_shape _ _ _ _ T) as (_ & _ & LT). destruct T as (gs & ck & G & V & L6 & C & ->).
  apply (other_hrp dsha s (chars "bc") Mainnet (chars "bcrt") (0 :: gs ++ ck) (chars "rt1" ++ map symbol (0 :: gs ++ ck))).
  - left. auto.
  - apply (hrp_chain Regtest reg_chain). right. right. left. auto.
  - constructor; [unfold value_ok; lia|]. apply Forall_app. split; [apply G|auto].
  - reflexivity.
  - discriminate.
  - change (chars "bc" ++ chars "rt1" ++ map symbol (0 :: gs ++ ck)) with (bech32_text (chars "bcrt") (0 :: gs ++ ck)). rewrite LT. change (len (chars "bcrt")) with 4. clear - L. dlia.
Qed.
End Hash.

Lemma any_chain_refuted : forall dsha, (forall m, length (dsha m) = 32%nat) -> (forall m, bytes_ok (dsha m)) ->
  ~ (forall n c s bs t, chain_of n c -> address_of dsha c bs t -> exists s', script_fromAddress dsha s t = Ok s' /\ script_holds s' bs).
Proof.
  intros dsha D1 D2 H. destruct (zero_address dsha D1 D2) as (t & T & L). destruct (short_address dsha D1 D2 script_new (zeros 20) t T) as [[S1 _] _].
  specialize (S1 (H Mainnet main_chain script_new _ t (or_introl (conj eq_refl eq_refl)) T)). lia.
Qed.
Lemma version_raw : forall dsha s n c ver prog t, (n = Mainnet /\ c = main_chain) \/ (n = Testnet /\ c = test_chain) -> program_ok ver prog -> 1 <= ver -> len prog <= 32 -> segwit_text (ch_hrp c) ver prog t ->
  exists s', script_fromAddress dsha s t = Ok s' /\ script_holds s' (ver :: len prog :: prog) /\ ver :: len prog :: prog <> witness_script ver prog.
Proof.
  intros dsha s n c ver prog t NC PO V L T. exists (holding s ([ver; len prog] ++ prog)). destruct PO as (PB & PV & PL & P0). split; [|split].
  - rewrite (read_segwit dsha s (ch_hrp c) n ver prog t); auto; [|destruct NC as [[-> ->]|[-> ->]]; [left|right]; auto|split; auto].
    destruct (Z.ltb_spec 32 (len prog)); [lia|auto].
  - apply holding_ok; [|rewrite !len_cons; lia]. constructor; [unfold byte_ok; lia|]. constructor; [unfold byte_ok; lia|auto].
  - unfold witness_script. destruct (Z.eqb_spec ver 0); [lia|]. intros E. apply (f_equal (hd 0)) in E. cbn [hd app] in E. lia.
Qed.
Lemma bech32m_refused : forall dsha s n c ver prog t, (n = Mainnet /\ c = main_chain) \/ (n = Testnet /\ c = test_chain) -> program_ok ver prog -> bech32m_text (ch_hrp c) ver prog t ->
  script_fromAddress dsha s t = Ok (script_clear s).
Proof.
  intros dsha s n c ver prog t NC PO T. apply (other_checksum dsha s (ch_hrp c) n ver prog t); auto. destruct NC as [[-> ->]|[-> ->]]; [left|right]; auto.
Qed.

(** * Buffers *)
Lemma long_program_over : forall dsha s ver prog t, program_ok ver prog -> 32 < len prog -> segwit_text (chars "bc") ver prog t -> script_fromAddress dsha s t = UB.
Proof.
  intros dsha s ver prog t PO L T. rewrite (read_segwit dsha s (chars "bc") Mainnet ver prog t); auto; [|left; auto]. destruct (Z.ltb_spec 32 (len prog)); [auto|lia].
Qed.
Lemma no_separator_over : forall dsha s r, ~ In 49 r -> Forall (fun c => 33 <= c <= 126) r -> 82 < len r <= 98 -> script_fromAddress dsha s (chars "bc" ++ r) = UB.
Proof.
  intros dsha s r N P L. assert (L2 : len (chars "bc" ++ r) = 2 + len r) by (rewrite len_app; reflexivity).
  rewrite (read_bech dsha s (chars "bc") Mainnet r); [|left; auto|lia].
  unfold segwit_addr_decode. rewrite decode_no_one_over; [reflexivity|intros I; apply in_app_or in I as [I|I]; [cbn in I; lia|auto]| |rewrite len_zeros; lia|lia].
  apply forallb_forall. intros x I. apply in_app_or in I as [I|I]; [cbn in I; destruct I as [<-|[<-|[]]]; reflexivity|]. rewrite Forall_forall in P. specialize (P x I).
  unfold printable. destruct (Z.leb_spec 33 x), (Z.leb_spec x 126); auto; lia.
Qed.
Lemma long_data_over : forall dsha s vals, Forall value_ok vals -> 90 < len vals <= 97 -> script_fromAddress dsha s (bech32_text (chars "bc") vals) = UB.
Proof.
  intros dsha s vals V L. unfold bech32_text. change (chars "1" ++ map symbol vals) with (49 :: map symbol vals).
  assert (L2 : len (chars "bc" ++ 49 :: map symbol vals) = 3 + len vals) by (rewrite len_app, len_cons, len_map; change (len (chars "bc")) with 2; lia).
  rewrite (read_bech dsha s (chars "bc") Mainnet); [|left; auto|lia].
  destruct (values_symbols vals (map symbol vals) V) as (_ & A & N).
  { apply lower_id. clear L L2. induction V as [|x l H]; [auto|]. cbn [map existsb]. destruct (symbol_range x H) as (_ & _ & ->). auto. }
  unfold segwit_addr_decode. rewrite decode_data_over; auto; rewrite ?len_map; change (len (chars "bc")) with 2; rewrite ?len_zeros; lia.
Qed.
Lemma short_safe : forall dsha s a, len a <= 62 \/ 100 < len a \/ (firstn 2 a <> chars "bc" /\ firstn 2 a <> chars "tb") -> exists s', script_fromAddress dsha s a = Ok s'.
Proof.
  intros dsha s a H. unfold script_fromAddress. rewrite found. destruct (len a >? 100) eqn:E100; [eauto|].
  assert (L100 : len a <= 100) by (rewrite Z.gtb_ltb in E100; apply Z.ltb_ge in E100; auto). clear E100.
  assert (K : forall p n, two p n -> starts_with p a = true -> exists r, segwit_addr_decode (zeros 32) p a = Ok r).
  { intros p n TW SW. destruct (two_hrp _ _ TW) as [_ LP]. apply segwit_safe_gen.
    - intros pre suf E N E3 _ _. rewrite len_zeros.
      assert (LL : len pre = 2) by (rewrite <- (to_lower_len pre), E3; auto). destruct H as [H|[H|[H1 H2]]].
      + rewrite E, len_app, len_cons in H. clear - H LL. dlia.
      + lia.
      + exfalso. destruct TW as [[-> _]|[-> _]]; apply starts_spec in SW as (r & ->); cbn in H1, H2; congruence.
    - destruct H as [H|[H|[H1 H2]]]; [left; lia|lia|]. exfalso. destruct TW as [[-> _]|[-> _]]; apply starts_spec in SW as (r & ->); cbn in H1, H2; congruence. }
  destruct (starts_with (chars "bc") a) eqn:E1; [|destruct (starts_with (chars "tb") a) eqn:E2].
  - change (n_bech32 Mainnet) with (chars "bc"). destruct (K _ Mainnet (or_introl (conj eq_refl eq_refl)) E1) as (r & ->). cbn [bind]. destruct r as [[[v w] l]|]; eauto.
  - change (n_bech32 Testnet) with (chars "tb"). destruct (K _ Testnet (or_intror (conj eq_refl eq_refl)) E2) as (r & ->). cbn [bind]. destruct r as [[[v w] l]|]; eauto.
  - destruct (fromBase58Check _ _ _) as [l addr]. destruct (negb _); [eauto|]. destruct (find _ _); [|eauto]. destruct (_ =? _); eauto.
Qed.

(** * Addresses of a key *)
Lemma key_addresses : forall dsha hash160, (forall m, length (dsha m) = 32%nat) -> (forall m, bytes_ok (dsha m)) ->
  (forall m, length (hash160 m) = 20%nat) -> (forall m, bytes_ok (hash160 m)) ->
  forall n c sec buffer, chain_of n c -> 76 <= len buffer ->
  exists a b d, address_of dsha c (p2pkh_script (hash160 sec)) a /\
    address_of dsha c (witness_script 0 (hash160 sec)) b /\
    address_of dsha c (p2sh_script (hash160 (witness_script 0 (hash160 sec)))) d /\
    legacyAddress dsha hash160 sec buffer n = (len a, a ++ zeros (length buffer - length a)) /\
    segwitAddress hash160 sec buffer n = Ok (76, b ++ zeros (length buffer - length b)) /\
    nestedSegwitAddress dsha hash160 sec buffer n = (len d, d ++ zeros (length buffer - length d)).
Proof.
  intros dsha h160 D1 D2 H1 H2 n c sec buffer HC LB. destruct (hrp_chain _ _ HC) as (E1 & E2 & E3 & HP & L4 & BP & BS).
  assert (L : forall m, len (h160 m) = 20) by (intros; unfold len; rewrite H1; auto).
  assert (WS : witness_script 0 (h160 sec) = [0; 20] ++ h160 sec) by (unfold witness_script; rewrite L; reflexivity).
  assert (LZ : length (zeros (length buffer)) = length buffer) by apply repeat_length.
  assert (LZ' : len (zeros (length buffer)) = len buffer) by (unfold len; rewrite LZ; auto).
  destruct (write58 dsha D1 D2 (ch_pkh c) (h160 sec) (zeros (length buffer)) BP (H2 _) (L _) ltac:(lia)) as (a & A1 & A2 & A3).
  destruct (write_segwit n c (h160 sec) (zeros (length buffer)) HC (H2 _) (or_introl (L _)) ltac:(lia)) as (b & B1 & B2 & B3 & B4).
  destruct (write58 dsha D1 D2 (ch_sh c) (h160 (witness_script 0 (h160 sec))) (zeros (length buffer)) BS (H2 _) (L _) ltac:(lia)) as (d & G1 & G2 & G3).
  exists a, b, d. split; [apply addr_pkh; auto|]. split; [apply addr_wpkh; auto|]. split; [apply addr_sh; auto|]. rewrite LZ in A3, G3. split; [|split].
  - unfold legacyAddress. rewrite E2. auto.
  - unfold segwitAddress. destruct (Z.ltb_spec (len buffer) 76); [lia|]. rewrite B4. cbn [bind snd]. do 3 f_equal.
    assert (LN : (length b + 1 <= length buffer)%nat) by (unfold len in *; lia). clear - LN. unfold zeros.
    assert (EK : exists k, length buffer = (length b + 1 + k)%nat) by (exists (length buffer - length b - 1)%nat; lia). destruct EK as (k & ->).
    rewrite repeat_app, skipn_app_len by (rewrite repeat_length; auto). replace (length b + 1 + k - length b)%nat with (S k) by lia. reflexivity.
  - unfold nestedSegwitAddress. rewrite E3, <- WS. auto.
Qed.

(** * Only what has the right checksum is accepted *)
Lemma mixed_lower : forall p r, p = chars "bc" \/ p = chars "tb" -> mixed_case (p ++ r) = false -> to_lower (p ++ r) = p ++ r.
Proof.
  intros p r H M. apply lower_id. unfold mixed_case in M. rewrite !existsb_app in *. destruct H as [-> | ->]; change (existsb is_lower _) with true in M at 1; rewrite orb_true_l, andb_true_r in M; exact M.
Qed.
Lemma accepted : forall dsha, (forall m, length (dsha m) = 32%nat) -> forall s a s', script_fromAddress dsha s a = Ok s' -> s' <> script_clear s ->
  (exists hrp ver prog, (hrp = chars "bc" \/ hrp = chars "tb") /\ program_ok ver prog /\ segwit_text hrp ver prog a /\ sc_arr s' = ver :: len prog :: prog) \/
  (exists p h, len h = 20 /\ fst (fromBase58 a (zeros 25)) = 25 /\ firstn 25 (snd (fromBase58 a (zeros 25))) = p :: h ++ firstn 4 (dsha (p :: h)) /\
     (((p = 0 \/ p = 111) /\ sc_arr s' = p2pkh_script h) \/ ((p = 5 \/ p = 196) /\ sc_arr s' = p2sh_script h))).
Proof.
  intros dsha DL s a s' H N. unfold script_fromAddress in H. rewrite found in H. destruct (len a >? 100); [congruence|].
  assert (K : forall p n, two p n -> starts_with p a = true ->
    (let! r := segwit_addr_decode (zeros 32) (n_bech32 n) a in
     match r with None => Ok (script_clear s) | Some (ver, prog, l) => Ok (holding s ([u8 ver; u8 l] ++ firstn (Z.to_nat l) prog)) end) = Ok s' ->
    exists hrp ver prog, (hrp = chars "bc" \/ hrp = chars "tb") /\ program_ok ver prog /\ segwit_text hrp ver prog a /\ sc_arr s' = ver :: len prog :: prog).
  { intros p n TW SW E. assert (HN : n_bech32 n = p) by (destruct TW as [[-> ->]|[-> ->]]; auto). rewrite HN in E.
    destruct (segwit_addr_decode (zeros 32) p a) as [[[[ver w] l]|]|] eqn:D; cbn [bind] in E; [|congruence|discriminate].
    injection E as <-. destruct (segwit_inv _ _ _ _ _ _ D) as (prog & -> & -> & PO & HP & T & MC). exists p, ver, prog.
    assert (PT : p = chars "bc" \/ p = chars "tb") by (destruct TW as [[-> _]|[-> _]]; auto). split; [auto|]. split; [auto|].
    apply starts_spec in SW as (r & ->). rewrite mixed_lower in T by auto. split; [auto|]. cbn [holding sc_arr].
    replace (Z.to_nat (len prog)) with (length prog) by (unfold len; lia). rewrite firstn_app_len by auto. destruct PO as (_ & ? & ? & _). rewrite !u8_id by lia. reflexivity. }
  destruct (starts_with (chars "bc") a) eqn:E1; [|destruct (starts_with (chars "tb") a) eqn:E2].
  - left. apply (K _ Mainnet (or_introl (conj eq_refl eq_refl)) E1 H).
  - left. apply (K _ Testnet (or_intror (conj eq_refl eq_refl)) E2 H).
  - right. clear K. destruct (fromBase58Check dsha a (zeros 21)) as [l addr] eqn:F. destruct (Z.eqb_spec l 21) as [->|]; [|cbn [negb] in H; congruence]. cbn [negb] in H.
    destruct (fromBase58Check_sound dsha a (zeros 21) 21 addr F ltac:(lia)) as (pl & tl & L & FA & CK & F1 & F2).
    change (zeros 21 ++ zeros 4) with (zeros 25) in F1, F2. change (21 + 4) with 25 in F2. destruct pl as [|p h]; [discriminate|]. change (Z.to_nat 21) with 21%nat in FA, L. injection L as L.
    exists p, h. split; [unfold len; rewrite L; auto|]. split; [auto|]. split.
    { rewrite F1, CK. rewrite firstn_app. cbn [length]. rewrite L. change (25 - 21)%nat with 4%nat. rewrite firstn_all2 by (cbn [length]; lia). reflexivity. }
    destruct addr as [|q addr]; [discriminate|]. pose proof (f_equal (hd 0) FA) as F3. pose proof (f_equal (@List.tl Z) FA) as F4. clear FA. change (q = p) in F3. change (firstn 20 addr = h) in F4. subst q. rename F4 into FA. change (firstn 20 (skipn 1 (p :: addr))) with (firstn 20 addr) in H. change (nth 0 (p :: addr) 0) with p in H. rewrite FA in H.
    unfold networks, Signet in H. cbn [find] in H. unfold Mainnet, Testnet, Regtest, n_p2pkh, n_p2sh in H.
    destruct (Z.eqb_spec p 0) as [->|]; [injection H as <-; left; split; auto|]. cbn [orb] in H.
    destruct (Z.eqb_spec p 5) as [->|]; [injection H as <-; right; split; auto|]. cbn [orb] in H.
    destruct (Z.eqb_spec p 111) as [->|]; [injection H as <-; left; split; auto|]. cbn [orb] in H.
    destruct (Z.eqb_spec p 196) as [->|]; [injection H as <-; right; split; auto|]. cbn [orb] in H. congruence.
Qed.
