(** The form of texts of keys and addresses (C90). *)
From Coq Require Import Lia.
From Verif Require Import Base.Bytes Base.BytesFacts Model.Conversion Model.Networks Model.Sign Model.Script Model.HD Model.Keys Model.Address Model.Strings
  Model.KeyStrings Spec.Codecs Spec.Objects Spec.Bech32 Spec.Address Spec.Keys Spec.HD Spec.Text Spec.Form Proof.BaseN Proof.AddrFacts Proof.AddrProps Proof.KeyFacts
  Proof.HDProps Proof.HDPub Proof.BechSegwit Proof.StringFacts.
Open Scope Z_scope.

Definition sym58 (d : Z) : Z := nth (Z.to_nat d) base58_alphabet 0.
Lemma digits_split : forall ds k, digits_ok 58 ds -> 0 <= k <= len ds ->
  exists a b, ds = a ++ b /\ len b = k /\ digits_ok 58 a /\ digits_ok 58 b.
Proof.
  intros ds k D K. exists (firstn (length ds - Z.to_nat k) ds), (skipn (length ds - Z.to_nat k) ds).
  split; [now rewrite firstn_skipn|]. split; [unfold len in *; rewrite skipn_length; lia|].
  rewrite <- (firstn_skipn (length ds - Z.to_nat k) ds) in D. apply Forall_app in D. exact D.
Qed.
Lemma text_lead : forall p rest t k m lo hi, bytes_ok (p ++ rest) -> hd 0 p <> 0 -> 0 <= k -> 1 <= m ->
  58 ^ (m - 1) <= lo -> hi <= 58 ^ m ->
  lo * 58 ^ k <= be_val 256 p * 256 ^ len rest -> (be_val 256 p + 1) * 256 ^ len rest <= hi * 58 ^ k ->
  base_text 58 base58_alphabet (p ++ rest) t ->
  exists a b, t = map sym58 (a ++ b) /\ len a = m /\ len b = k /\ digits_ok 58 a /\ digits_ok 58 b /\ lo <= be_val 58 a < hi.
Proof.
  intros p rest t k m lo hi B HP K M L1 L2 V1 V2 (z & r & d & E & R & D & N & V & ->).
  destruct p as [|x p]; [cbn in HP; contradiction|]. cbn [hd] in HP.
  destruct z as [|z]; [|cbn in E; injection E as E1 E2; congruence]. cbn [repeat app] in *. subst r.
  change (x :: p ++ rest) with ((x :: p) ++ rest) in *. apply Forall_app in B. destruct B as (BP & BR).
  rewrite be_val_app in V. pose proof (be_val_bound 256 rest ltac:(lia) (proj1 (bytes_digits _) BR)) as RB.
  set (P := be_val 256 (x :: p)) in *. set (W := 256 ^ len rest) in *.
  assert (KP : 0 < 58 ^ k) by (apply Z.pow_pos_nonneg; lia).
  assert (U1 : 58 ^ (m - 1 + k) <= be_val 58 d).
  { rewrite Z.pow_add_r by lia. nia. }
  assert (U2 : be_val 58 d < 58 ^ (m + k)).
  { rewrite Z.pow_add_r by lia. nia. }
  assert (D58 : digits_ok 58 d) by exact D.
  pose proof (be_val_bound 58 d ltac:(lia) D58) as B2.
  assert (LN : len d = m + k).
  { assert (G : m - 1 + k < len d).
    { destruct (Z.lt_ge_cases (m - 1 + k) (len d)) as [|G]; auto. exfalso.
      assert (58 ^ len d <= 58 ^ (m - 1 + k)) by (apply Z.pow_le_mono_r; lia). lia. }
    destruct d as [|d0 ds]; [rewrite len_nil in G; lia|]. cbn [hd] in N. assert (0 < d0) by (inversion D; subst; lia).
    assert (DT : digits_ok 58 ds) by (inversion D58; auto).
    pose proof (be_val_lower 58 d0 ds ltac:(lia) DT ltac:(lia)) as LB.
    rewrite len_cons in *. destruct (Z.le_gt_cases (1 + len ds) (m + k)) as [|H']; [lia|exfalso].
    assert (58 ^ (m + k) <= 58 ^ len ds) by (apply Z.pow_le_mono_r; lia). lia. }
  destruct (digits_split d k D58 ltac:(lia)) as (a & b & -> & LB & DA & DB). rewrite len_app in LN.
  exists a, b. split; [reflexivity|]. split; [lia|]. split; [exact LB|]. split; [exact DA|]. split; [exact DB|].
  rewrite be_val_app, LB in *. pose proof (be_val_bound 58 b ltac:(lia) DB) as BB. rewrite LB in BB. nia.
Qed.
(** One value only: the first characters are known. *)
Lemma text_starts : forall p rest t k word, bytes_ok (p ++ rest) -> hd 0 p <> 0 -> 0 <= k ->
  digits_ok 58 word -> hd 0 word <> 0 ->
  be_val 58 word * 58 ^ k <= be_val 256 p * 256 ^ len rest -> (be_val 256 p + 1) * 256 ^ len rest <= (be_val 58 word + 1) * 58 ^ k ->
  base_text 58 base58_alphabet (p ++ rest) t ->
  firstn (length word) t = map sym58 word /\ len t = len word + k.
Proof.
  intros p rest t k word B HP K DW NW V1 V2 T.
  destruct word as [|w0 ws] eqn:EW; [cbn in NW; contradiction|]. rewrite <- EW in *. assert (W0 : 0 < w0) by (subst word; inversion DW; subst; cbn in NW; lia).
  assert (LW : 1 <= len word) by (subst word; rewrite len_cons; pose proof (len_nonneg _ ws); lia).
  assert (LO : 58 ^ (len word - 1) <= be_val 58 word).
  { subst word. assert (DT : digits_ok 58 ws) by (inversion DW; auto). pose proof (be_val_lower 58 w0 ws ltac:(lia) DT ltac:(lia)).
    replace (len (w0 :: ws) - 1) with (len ws) by (rewrite len_cons; lia). lia. }
  pose proof (be_val_bound 58 word ltac:(lia) DW) as HI.
  destruct (text_lead p rest t k (len word) (be_val 58 word) (be_val 58 word + 1) B HP K LW LO ltac:(lia) V1 V2 T) as (a & b & -> & LA & LB & DA & DB & V).
  assert (a = word) as ->.
  { apply (be_val_inj 58); auto; [lia|unfold len in LA; lia|lia]. }
  split.
  - rewrite map_app, firstn_app, map_length. replace (length word - length word)%nat with 0%nat by lia.
    rewrite firstn_O, app_nil_r, firstn_all2 by (rewrite map_length; lia). reflexivity.
  - unfold len in *. rewrite map_length, app_length. lia.
Qed.

(** * Extended keys *)
Definition dig (c : Z) : Z := Z.of_nat (count_while (fun x => negb (x =? c)) base58_alphabet).
Definition word_ok (ver text : list Z) : bool :=
  let w := map dig text in
  forallb (fun d => (0 <=? d) && (d <? 58)) w && negb (hd 0 w =? 0) && (if list_eq_dec Z.eq_dec (map sym58 w) text then true else false) &&
  (be_val 58 w * 58 ^ 107 <=? be_val 256 ver * 256 ^ 78) && ((be_val 256 ver + 1) * 256 ^ 78 <=? (be_val 58 w + 1) * 58 ^ 107).
Lemma ext_form : forall ver text rest t, word_ok ver text = true -> len text = 4 -> bytes_ok (ver ++ rest) -> hd 0 ver <> 0 -> len rest = 78 ->
  base_text 58 base58_alphabet (ver ++ rest) t -> firstn 4 t = text /\ len t = 111.
Proof.
  intros ver text rest t W L4 B H LR T. unfold word_ok in W. set (w := map dig text) in *.
  apply andb_prop in W as [W W5]. apply andb_prop in W as [W W4]. apply andb_prop in W as [W W3]. apply andb_prop in W as [W1 W2].
  destruct (list_eq_dec Z.eq_dec (map sym58 w) text) as [E|]; [|discriminate].
  assert (LW : length w = 4%nat) by (unfold w; rewrite map_length; unfold len in L4; lia).
  assert (DW : digits_ok 58 w).
  { apply Forall_forall. intros d I. rewrite forallb_forall in W1. specialize (W1 d I). lia. }
  assert (NW : hd 0 w <> 0) by (destruct (Z.eqb_spec (hd 0 w) 0); [discriminate|auto]).
  apply Z.leb_le in W4, W5. rewrite <- LR in W4, W5.
  destruct (text_starts ver rest t 107 w B H ltac:(lia) DW NW W4 W5 T) as (F & L).
  rewrite LW, E in F. split; [exact F|]. rewrite L. unfold len. rewrite LW. reflexivity.
Qed.
Lemma prv_words : forall n test t, is_test n test -> word_ok (prv_version n t) (key_letter test t ++ chars "prv") = true /\
  len (key_letter test t ++ chars "prv") = 4 /\ length (prv_version n t) = 4%nat /\ hd 0 (prv_version n t) <> 0 /\ In n networks.
Proof.
  intros n test t [[-> ->]|[I ->]].
  - destruct t; (split; [vm_compute; reflexivity|]; split; [reflexivity|]; split; [reflexivity|]; split; [discriminate|cbn; auto]).
  - destruct I as [<-|[<-|[<-|[]]]]; destruct t; (split; [vm_compute; reflexivity|]; split; [reflexivity|]; split; [reflexivity|]; split; [discriminate|cbn; auto]).
Qed.
Lemma pub_words : forall n test t, is_test n test -> word_ok (pub_version n t) (key_letter test t ++ chars "pub") = true /\
  len (key_letter test t ++ chars "pub") = 4 /\ length (pub_version n t) = 4%nat /\ hd 0 (pub_version n t) <> 0 /\ In n networks.
Proof.
  intros n test t [[-> ->]|[I ->]].
  - destruct t; (split; [vm_compute; reflexivity|]; split; [reflexivity|]; split; [reflexivity|]; split; [discriminate|cbn; auto]).
  - destruct I as [<-|[<-|[<-|[]]]]; destruct t; (split; [vm_compute; reflexivity|]; split; [reflexivity|]; split; [reflexivity|]; split; [discriminate|cbn; auto]).
Qed.

Section Form.
Variable dsha : list Z -> list Z.
Hypothesis dsha_len : forall m, length (dsha m) = 32%nat.
Hypothesis dsha_ok : forall m, bytes_ok (dsha m).
Lemma check4 : forall m, length (firstn 4 (dsha m)) = 4%nat /\ bytes_ok (firstn 4 (dsha m)).
Proof. intros m. split; [rewrite firstn_length, dsha_len; reflexivity|apply bytes_ok_firstn; auto]. Qed.

Lemma xprv_form : forall k test, hk_sized k -> hk_valued k -> is_test (hk_net k) test ->
  exists text, xprv_string dsha k = Ok text /\ len text = 111 /\ firstn 4 text = key_letter test (hk_type k) ++ chars "prv" /\
    base58check_text dsha (hk_hex k) text.
Proof.
  intros k test S V N. destruct (prv_words (hk_net k) test (hk_type k) N) as (W & L4 & LV & HV & IN).
  destruct (hk_hex_facts k S V IN) as (F1 & F2 & F3).
  assert (L112 : 112 <= len (zeros 112)) by (rewrite len_zeros; lia).
  destruct (text_writes dsha dsha_len dsha_ok (hk_hex k) (zeros 112) F1 F2 F3 L112) as (text & E & X).
  destruct (check4 (hk_hex k)) as (C1 & C2). pose proof X as X'. unfold base58check_text in X'.
  assert (BA : bytes_ok (hk_hex k ++ firstn 4 (dsha (hk_hex k)))) by (apply Forall_app; auto).
  set (chk := firstn 4 (dsha (hk_hex k))) in *.
  set (tl := [hk_depth k] ++ hk_fp k ++ be32 (hk_child k) ++ hk_chain k ++ [0] ++ hk_num k).
  assert (HE : hk_hex k = prv_version (hk_net k) (hk_type k) ++ tl) by reflexivity.
  rewrite HE, <- app_assoc in X', BA.
  assert (LT : len (tl ++ chk) = 78).
  { rewrite len_app. assert (len tl = 74) by (rewrite HE, len_app in F2; unfold len in F2 at 1; rewrite LV in F2; lia).
    unfold len at 2. rewrite C1. lia. }
  destruct (ext_form _ _ _ _ W L4 BA HV LT X') as (P & L).
  exists text. split; [|split; [exact L|split; [exact P|exact X]]]. unfold xprv_string, xprv. rewrite E. cbn [snd].
  apply c_string_of; [|unfold zeros; rewrite repeat_length; unfold len in L; lia].
  exact (base_text_no_nul 58 base58_alphabet _ _ (proj1 alphabets_no_nul) ltac:(split; [lia|vm_compute; discriminate]) X).
Qed.
Lemma xpub_form : forall k test, hp_sized k -> hp_valued k -> is_test (hp_net k) test ->
  exists text, xpub_string dsha k = Ok text /\ len text = 111 /\ firstn 4 text = key_letter test (hp_type k) ++ chars "pub" /\
    base58check_text dsha (hp_hex k) text.
Proof.
  intros k test S V N. destruct (pub_words (hp_net k) test (hp_type k) N) as (W & L4 & LV & HV & IN).
  destruct (hp_hex_facts (fun _ _ => UB) (fun _ => false) [] k S V IN) as (F1 & F2 & F3).
  assert (L112 : 112 <= len (zeros 114)) by (rewrite len_zeros; lia).
  destruct (text_writes dsha dsha_len dsha_ok (hp_hex k) (zeros 114) F1 F2 F3 L112) as (text & E & X).
  destruct (check4 (hp_hex k)) as (C1 & C2). pose proof X as X'. unfold base58check_text in X'.
  assert (BA : bytes_ok (hp_hex k ++ firstn 4 (dsha (hp_hex k)))) by (apply Forall_app; auto).
  set (chk := firstn 4 (dsha (hp_hex k))) in *.
  set (tl := [hp_depth k] ++ hp_fp k ++ be32 (hp_child k) ++ hp_chain k ++ [2 + Z.land (nth 63 (hp_point k) 0) 1] ++ firstn 32 (hp_point k)).
  assert (HE : hp_hex k = pub_version (hp_net k) (hp_type k) ++ tl) by reflexivity.
  rewrite HE, <- app_assoc in X', BA.
  assert (LT : len (tl ++ chk) = 78).
  { rewrite len_app. assert (len tl = 74) by (rewrite HE, len_app in F2; unfold len in F2 at 1; rewrite LV in F2; lia).
    unfold len at 2. rewrite C1. lia. }
  destruct (ext_form _ _ _ _ W L4 BA HV LT X') as (P & L).
  exists text. split; [|split; [exact L|split; [exact P|exact X]]]. unfold xpub_string, xpub_text. rewrite E. cbn [snd].
  apply c_string_of; [|unfold zeros; rewrite repeat_length; unfold len in L; lia].
  exact (base_text_no_nul 58 base58_alphabet _ _ (proj1 alphabets_no_nul) ltac:(split; [lia|vm_compute; discriminate]) X).
Qed.

(** * One leading byte, one leading digit *)
Lemma lead1 : forall p rest t k lo hi, bytes_ok (p :: rest) -> p <> 0 -> 0 <= k -> 1 <= lo -> hi <= 58 ->
  lo * 58 ^ k <= p * 256 ^ len rest -> (p + 1) * 256 ^ len rest <= hi * 58 ^ k ->
  base_text 58 base58_alphabet (p :: rest) t -> len t = 1 + k /\ exists d, lo <= d < hi /\ hd 0 t = sym58 d.
Proof.
  intros p rest t k lo hi B HP K L1 L2 V1 V2 T.
  assert (BV : be_val 256 [p] = p) by (unfold be_val; cbn; lia).
  assert (P1 : 58 ^ (1 - 1) <= lo) by (change (58 ^ (1 - 1)) with 1; lia).
  assert (P2 : hi <= 58 ^ 1) by (rewrite Z.pow_1_r; lia).
  rewrite <- BV in V1, V2.
  destruct (text_lead [p] rest t k 1 lo hi B HP K ltac:(lia) P1 P2 V1 V2 T) as (a & b & -> & LA & LB & DA & DB & R).
  destruct a as [|d [|]]; [rewrite len_nil in LA; lia| |rewrite !len_cons in LA; pose proof (len_nonneg _ l); lia].
  split; [rewrite len_map, len_app; lia|]. exists d. split; [|reflexivity]. unfold be_val in R. cbn in R. lia.
Qed.
Lemma wif_form_ok : forall k test, In (pk_net k) networks -> is_test (pk_net k) test -> length (pk_num k) = 32%nat -> bytes_ok (pk_num k) ->
  exists text, wif_string dsha k = Ok text /\ wif_form test (pk_compressed k) text /\
    wif_text dsha (n_wif (pk_net k)) (pk_num k) (if pk_compressed k then [1] else []) text.
Proof.
  intros k test IN N LN BN. assert (L53 : 53 <= len (zeros 53)) by (rewrite len_zeros; lia).
  destruct (wif_writes dsha dsha_len dsha_ok k (zeros 53) IN LN BN L53) as (text & E & X).
  assert (NW : n_wif (pk_net k) = if test then 239 else 128).
  { destruct N as [[-> ->]|[I ->]]; [reflexivity|]. destruct I as [<-|[<-|[<-|[]]]]; reflexivity. }
  exists text. pose proof X as X'. unfold wif_text in X'. cbv zeta in X'.
  set (flag := if pk_compressed k then [1] else []) in *. set (pay := n_wif (pk_net k) :: pk_num k ++ flag) in *.
  destruct (check4 pay) as (C1 & C2).
  assert (BF : bytes_ok flag) by (unfold flag; destruct (pk_compressed k); [constructor; [unfold byte_ok; lia|constructor]|constructor]).
  assert (BP : byte_ok (n_wif (pk_net k))) by (rewrite NW; unfold byte_ok; destruct test; lia).
  set (chk := firstn 4 (dsha pay)) in *.
  assert (BA : bytes_ok (n_wif (pk_net k) :: (pk_num k ++ flag) ++ chk)).
  { constructor; auto. apply Forall_app; split; auto. apply Forall_app; auto. }
  assert (LR : len ((pk_num k ++ flag) ++ chk) = if pk_compressed k then 37 else 36).
  { rewrite !len_app. unfold len. rewrite LN, C1. unfold flag. destruct (pk_compressed k); reflexivity. }
  change (pay ++ chk) with (n_wif (pk_net k) :: (pk_num k ++ flag) ++ chk) in X'.
  assert (F : wif_form test (pk_compressed k) text).
  { clearbody chk. rewrite NW in *. unfold wif_form. destruct (pk_compressed k), test.
    - destruct (lead1 _ _ text 51 35 36 BA) as (L & d & D & H); [lia|lia|lia|lia|rewrite LR; vm_compute; discriminate|rewrite LR; vm_compute; discriminate|exact X'|].
      assert (d = 35) as -> by lia. split; [lia|]. rewrite H. vm_compute. auto.
    - destruct (lead1 _ _ text 51 18 20 BA) as (L & d & D & H); [lia|lia|lia|lia|rewrite LR; vm_compute; discriminate|rewrite LR; vm_compute; discriminate|exact X'|].
      assert (d = 18 \/ d = 19) as [-> | ->] by lia; (split; [lia|]; rewrite H; vm_compute; auto).
    - destruct (lead1 _ _ text 50 8 9 BA) as (L & d & D & H); [lia|lia|lia|lia|rewrite LR; vm_compute; discriminate|rewrite LR; vm_compute; discriminate|exact X'|].
      assert (d = 8) as -> by lia. split; [lia|]. rewrite H. vm_compute. auto.
    - destruct (lead1 _ _ text 50 4 5 BA) as (L & d & D & H); [lia|lia|lia|lia|rewrite LR; vm_compute; discriminate|rewrite LR; vm_compute; discriminate|exact X'|].
      assert (d = 4) as -> by lia. split; [lia|]. rewrite H. vm_compute. auto. }
  split; [|split; [exact F|exact X]].
  unfold wif_string. rewrite E. cbn [snd]. apply c_string_of.
  - exact (base_text_no_nul 58 base58_alphabet _ _ (proj1 alphabets_no_nul) ltac:(split; [lia|vm_compute; discriminate]) X).
  - unfold zeros; rewrite repeat_length. assert (len text <= 52) by (unfold wif_form in F; destruct (pk_compressed k), F; lia). unfold len in *. lia.
Qed.

(** * Addresses *)
Lemma zero_lead : forall rest t, bytes_ok (0 :: rest) -> len rest = 24 -> base_text 58 base58_alphabet (0 :: rest) t -> 25 <= len t <= 34 /\ hd 0 t = 49.
Proof.
  intros rest t B L T. destruct (first_zero _ _ T) as (u & EU). split; [|subst t; reflexivity].
  destruct T as (z & r & d & E & R & D & N & V & ->).
  assert (LE : Z.of_nat z + len r = 25).
  { apply (f_equal len) in E. rewrite len_cons, len_app, L in E. unfold len in E at 1. rewrite repeat_length in E. lia. }
  assert (Z1 : (1 <= z)%nat) by (destruct z; [cbn in E; subst r; cbn in R; congruence|lia]).
  assert (BR : bytes_ok r) by (rewrite E in B; apply Forall_app in B; apply B).
  rewrite len_app, len_map. unfold len at 1 3. rewrite repeat_length.
  pose proof (len_nonneg _ r) as RN. pose proof (len_nonneg _ d) as DN.
  assert (D58 : digits_ok 58 d) by exact D.
  pose proof (be_val_bound 58 d ltac:(lia) D58) as VB.
  pose proof (be_val_bound 256 r ltac:(lia) (proj1 (bytes_digits _) BR)) as VR.
  assert (UP : 58 ^ (len d - 1) <= be_val 58 d \/ len d = 0).
  { destruct d as [|d0 ds]; [right; reflexivity|left]. cbn [hd] in N. assert (0 < d0) by (inversion D; subst; lia).
    assert (DT : digits_ok 58 ds) by (inversion D58; auto). replace (len (d0 :: ds) - 1) with (len ds) by (rewrite len_cons; lia).
    apply be_val_lower; auto; lia. }
  assert (LOW : 256 ^ (len r - 1) <= be_val 256 r \/ len r = 0).
  { destruct r as [|r0 rs]; [right; reflexivity|left]. cbn [hd] in R. assert (DR : digits_ok 256 (r0 :: rs)) by (apply bytes_digits; auto).
    assert (0 < r0) by (inversion DR; subst; lia).
    assert (DT : digits_ok 256 rs) by (inversion DR; auto). replace (len (r0 :: rs) - 1) with (len rs) by (rewrite len_cons; lia).
    apply be_val_lower; auto; lia. }
  change (Z.of_nat (length d)) with (len d). clear - LE Z1 RN DN VB VR UP LOW V.
  set (m := len r) in *. set (n := len d) in *. clearbody m n. rewrite V in *. set (v := be_val 256 r) in *. clearbody v.
  assert (LE' : Z.of_nat z = 25 - m) by lia. rewrite LE'. assert (0 <= m <= 24) by lia. clear LE LE' Z1.
  split.
  - destruct LOW as [LOW|LOW]; [|lia]. destruct (Z.lt_ge_cases n m) as [G|]; [|lia]. exfalso.
    assert (58 ^ n <= 58 ^ (m - 1)) by (apply Z.pow_le_mono_r; lia). assert (58 ^ (m - 1) <= 256 ^ (m - 1)) by (apply Z.pow_le_mono_l; lia). lia.
  - destruct UP as [UP|UP]; [|lia]. destruct (Z.le_gt_cases (25 - m + n) 34) as [|G]; [lia|exfalso].
    assert (58 ^ (m + 9) <= 58 ^ (n - 1)) by (apply Z.pow_le_mono_r; lia).
    assert (K : 256 ^ m <= 58 ^ (m + 9)); [|lia].
    assert (C : forallb (fun i => 256 ^ Z.of_nat i <=? 58 ^ (Z.of_nat i + 9)) (seq 0 25) = true) by (vm_compute; reflexivity).
    rewrite forallb_forall in C. specialize (C (Z.to_nat m) ltac:(apply in_seq; lia)). rewrite Z2Nat.id in C by lia. apply Z.leb_le in C. exact C.
Qed.
Lemma pkh_form_ok : forall (test : bool) h t, bytes_ok h -> len h = 20 -> Spec.Address.base58check_text dsha ((if test then 111 else 0) :: h) t -> pkh_form test t.
Proof.
  intros test h t B L T. unfold Spec.Address.base58check_text in T. destruct (check4 ((if test then 111 else 0) :: h)) as (C1 & C2).
  set (chk := firstn 4 (dsha ((if test then 111 else 0) :: h))) in *. clearbody chk. cbn [app] in T.
  assert (LR : len (h ++ chk) = 24) by (rewrite len_app; unfold len at 2; rewrite C1; lia).
  assert (BA : bytes_ok ((if test then 111 else 0) :: h ++ chk)) by (constructor; [unfold byte_ok; destruct test; lia|apply Forall_app; auto]).
  unfold pkh_form. destruct test.
  - destruct (lead1 _ _ t 33 44 46 BA) as (LT & d & D & H); [lia|lia|lia|lia|rewrite LR; vm_compute; discriminate|rewrite LR; vm_compute; discriminate|exact T|].
    assert (d = 44 \/ d = 45) as [-> | ->] by lia; (split; [lia|]; rewrite H; vm_compute; auto).
  - exact (zero_lead _ _ BA LR T).
Qed.
Lemma sh_form_ok : forall (test : bool) h t, bytes_ok h -> len h = 20 -> Spec.Address.base58check_text dsha ((if test then 196 else 5) :: h) t -> sh_form test t.
Proof.
  intros test h t B L T. unfold Spec.Address.base58check_text in T. destruct (check4 ((if test then 196 else 5) :: h)) as (C1 & C2).
  set (chk := firstn 4 (dsha ((if test then 196 else 5) :: h))) in *. clearbody chk. cbn [app] in T.
  assert (LR : len (h ++ chk) = 24) by (rewrite len_app; unfold len at 2; rewrite C1; lia).
  assert (BA : bytes_ok ((if test then 196 else 5) :: h ++ chk)) by (constructor; [unfold byte_ok; destruct test; lia|apply Forall_app; auto]).
  unfold sh_form. destruct test.
  - destruct (lead1 _ _ t 34 1 2 BA) as (LT & d & D & H); [lia|lia|lia|lia|rewrite LR; vm_compute; discriminate|rewrite LR; vm_compute; discriminate|exact T|].
    assert (d = 1) as -> by lia; (split; [lia|]; rewrite H; vm_compute; auto).
  - destruct (lead1 _ _ t 33 2 3 BA) as (LT & d & D & H); [lia|lia|lia|lia|rewrite LR; vm_compute; discriminate|rewrite LR; vm_compute; discriminate|exact T|].
    assert (d = 2) as -> by lia; (split; [lia|]; rewrite H; vm_compute; auto).
Qed.
Lemma segwit_form_ok : forall hrp h t, len h = 20 \/ len h = 32 -> segwit_text hrp 0 h t -> segwit_form hrp h t.
Proof.
  intros hrp h t L (gs & check & (_ & LG & _) & _ & LC & _ & ->). split.
  - exists (map symbol (gs ++ check)). reflexivity.
  - unfold bech32_text. rewrite !len_app, len_map, len_cons, len_app, LG, LC. change (len (chars "1")) with 1.
    destruct L as [-> | ->]; [change ((8 * 20 + 4) / 5) with 32; change (20 =? 20) with true|change ((8 * 32 + 4) / 5) with 52; change (32 =? 20) with false]; cbv iota; lia.
Qed.
Lemma chain_test : forall n c test, chain_of n c -> is_test n test -> ch_pkh c = (if test then 111 else 0) /\ ch_sh c = (if test then 196 else 5).
Proof.
  intros n c test C T. destruct C as [[-> ->]|[[-> ->]|[[-> ->]|[-> ->]]]]; destruct T as [[E ->]|[I ->]]; try discriminate; auto.
  destruct I as [E|[E|[E|[]]]]; discriminate.
Qed.
Lemma address_forms : forall n c test bs t, chain_of n c -> is_test n test -> address_of dsha c bs t ->
  (forall h, bs = p2pkh_script h -> pkh_form test t) /\ (forall h, bs = p2sh_script h -> sh_form test t) /\
  (forall h, bs = witness_script 0 h -> segwit_form (ch_hrp c) h t).
Proof.
  intros n c test bs t C T A. destruct (chain_test n c test C T) as (E1 & E2). destruct A as [h t B L X|h t B L X|h t B L X|h t B L X].
  - rewrite E1 in X. split; [intros; apply (pkh_form_ok test h); auto|]. split; intros; discriminate.
  - rewrite E2 in X. split; [intros; discriminate|]. split; [intros; apply (sh_form_ok test h); auto|intros; discriminate].
  - split; [intros; discriminate|]. split; [intros; discriminate|]. intros h' E. unfold witness_script in E. cbn in E. injection E as _ E.
    subst h'. apply segwit_form_ok; auto.
  - split; [intros; discriminate|]. split; [intros; discriminate|]. intros h' E. unfold witness_script in E. cbn in E. injection E as _ E.
    subst h'. apply segwit_form_ok; auto.
Qed.
Lemma address_no_nul : forall n c bs t, chain_of n c -> address_of dsha c bs t -> no_nul t /\ len t <= 75.
Proof.
  intros n c bs t C A. assert (T : exists test, is_test n test).
  { destruct C as [[-> ->]|[[-> ->]|[[-> ->]|[-> ->]]]]; [exists false; left; auto|exists true; right; cbn; auto..]. }
  destruct T as (test & T). destruct (address_forms n c test bs t C T A) as (F1 & F2 & F3).
  destruct (hrp_chain _ _ C) as (_ & _ & _ & (HP & _) & L4 & _).
  destruct A as [h t B L X|h t B L X|h t B L X|h t B L X].
  - split; [exact (base_text_no_nul 58 base58_alphabet _ _ (proj1 alphabets_no_nul) ltac:(split; [lia|vm_compute; discriminate]) X)|].
    specialize (F1 _ eq_refl). unfold pkh_form in F1. destruct test; lia.
  - split; [exact (base_text_no_nul 58 base58_alphabet _ _ (proj1 alphabets_no_nul) ltac:(split; [lia|vm_compute; discriminate]) X)|].
    specialize (F2 _ eq_refl). unfold sh_form in F2. destruct test; lia.
  - destruct (F3 _ eq_refl) as (_ & F). rewrite L in F. change (20 =? 20) with true in F. cbv iota in F. split; [|lia].
    destruct (write_segwit n c h (zeros 76) C B (or_introl L)) as (t' & X' & NZ & _); [rewrite len_zeros; lia|].
    rewrite (segwit_text_unique _ _ _ _ _ X X'). exact NZ.
  - destruct (F3 _ eq_refl) as (_ & F). rewrite L in F. change (32 =? 20) with false in F. cbv iota in F. split; [|lia].
    destruct (write_segwit n c h (zeros 76) C B (or_intror L)) as (t' & X' & NZ & _); [rewrite len_zeros; lia|].
    rewrite (segwit_text_unique _ _ _ _ _ X X'). exact NZ.
Qed.

Lemma address_string_ok : forall n c test s bs, chain_of n c -> is_test n test -> script_holds s bs -> standard_script bs ->
  exists text, address_string dsha s n = Ok text /\ address_of dsha c bs text.
Proof.
  intros n c test s bs C T H ST. destruct (address_text dsha dsha_len dsha_ok n c s bs (zeros 100) C H ST) as (text & A & E).
  exists text. split; [|exact A]. destruct (address_no_nul n c bs text C A) as (NZ & L). unfold address_string. rewrite E, len_zeros.
  destruct (Z.leb_spec (len text) (Z.of_nat 100)); [|lia]. cbn [bind fst snd].
  destruct (Z.eqb_spec (len text) 0) as [Z0|].
  - destruct text; [reflexivity|rewrite len_cons in Z0; pose proof (len_nonneg _ text); lia].
  - apply c_string_of; auto. unfold zeros; rewrite repeat_length. unfold len in L. lia.
Qed.
Lemma no_address_string : forall s n, (forall t, In t [P2PKH; P2SH; P2WPKH; P2WSH] -> script_type_of s <> t) -> address_string dsha s n = Ok [].
Proof. intros s n H. unfold address_string. rewrite (other_type dsha s (zeros 100) n H). reflexivity. Qed.
Lemma key_address_strings : forall hash160, (forall m, length (hash160 m) = 20%nat) -> (forall m, bytes_ok (hash160 m)) ->
  forall n c sec, chain_of n c ->
  exists a b d, legacy_address_string dsha hash160 sec n = Ok a /\ segwit_address_string hash160 sec n = Ok b /\
    nested_address_string dsha hash160 sec n = Ok d /\
    address_of dsha c (p2pkh_script (hash160 sec)) a /\ address_of dsha c (witness_script 0 (hash160 sec)) b /\
    address_of dsha c (p2sh_script (hash160 (witness_script 0 (hash160 sec)))) d.
Proof.
  intros h160 H1 H2 n c sec HC. destruct (hrp_chain _ _ HC) as (E1 & E2 & E3 & HP & L4 & BP & BS).
  assert (L : forall m, len (h160 m) = 20) by (intros; unfold len; rewrite H1; auto).
  assert (WS : witness_script 0 (h160 sec) = [0; 20] ++ h160 sec) by (unfold witness_script; rewrite L; reflexivity).
  destruct (key_addresses dsha h160 dsha_len dsha_ok H1 H2 n c sec (zeros 76) HC) as (a0 & b & d0 & _ & B1 & _ & _ & B2 & _); [rewrite len_zeros; lia|].
  destruct (write58 dsha dsha_len dsha_ok (ch_pkh c) (h160 sec) (zeros 40) BP (H2 _) (L _)) as (a & A1 & A2 & A3); [rewrite len_zeros; lia|].
  destruct (write58 dsha dsha_len dsha_ok (ch_sh c) (h160 (witness_script 0 (h160 sec))) (zeros 40) BS (H2 _) (L _)) as (d & G1 & G2 & G3); [rewrite len_zeros; lia|].
  assert (XA : address_of dsha c (p2pkh_script (h160 sec)) a) by (apply addr_pkh; auto).
  assert (XD : address_of dsha c (p2sh_script (h160 (witness_script 0 (h160 sec)))) d) by (apply addr_sh; auto).
  exists a, b, d. split; [|split; [|split; [|auto]]].
  - unfold legacy_address_string, legacyAddress. rewrite E2. change (zeros (length (zeros 40))) with (zeros 40). rewrite A3. cbn [snd].
    apply c_string_of; [apply (address_no_nul n c _ _ HC XA)|unfold zeros; rewrite repeat_length; unfold len in A2; lia].
  - unfold segwit_address_string. rewrite B2. cbn [bind snd]. destruct (address_no_nul n c _ _ HC B1) as (NB & LB).
    apply c_string_of; [exact NB|unfold zeros; rewrite repeat_length; unfold len in LB; lia].
  - unfold nested_address_string, nestedSegwitAddress. rewrite E3, <- WS. change (zeros (length (zeros 40))) with (zeros 40). rewrite G3. cbn [snd].
    apply c_string_of; [apply (address_no_nul n c _ _ HC XD)|unfold zeros; rewrite repeat_length; unfold len in G2; lia].
Qed.
End Form.
