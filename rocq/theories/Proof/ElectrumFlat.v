(** Statements about Electrum's transactions without section variables. *)
From Coq Require Import Lia.
From Verif Require Import Base.Bytes Base.BytesFacts Spec.Codecs Spec.Hash Spec.Wire Spec.Objects Spec.Keys Spec.HD Spec.Scalar Spec.Signature Spec.Point Spec.Sighash Spec.Curve Spec.Schemes Spec.PSBTSign Spec.Electrum
  Model.Stream Model.Script Model.Tx Model.Signature Model.Point Model.Sign Model.Networks Model.HD Model.PointOps Model.Electrum
  Proof.StreamFacts Proof.TxProps Proof.ElectrumProps Proof.ElectrumSign Proof.ElectrumReal.
Open Scope Z_scope.

Theorem flat_sign : forall K H dsha hash160 sha256 hmac512 rz rzs rks account, fips_constants fips256 K H -> hash_sizes dsha hash160 hmac512 ->
  (forall m, length (sha256 m) = 32%nat /\ bytes_ok (sha256 m)) -> draws rz rzs rks -> is_scalar (hk_num account) ->
  forall e v xs, electrum_holds e v xs -> amounts_hold e xs -> Forall einput_ok xs -> len (s_ins v) <= 256 -> len (s_outs v) < 2^64 ->
  let mine := has_key (point_bytes (ec_mul (number (hk_num account)) gen)) in
  Forall (fun x => mine x = true -> bip32_derive hmac512 (hk_num account) (hk_chain account) [e_first x; e_second x] <> None) xs ->
  exists e' js, el_sign_code dsha hash160 sha256 hmac512 rz rzs rks e account = Ok (e', len (filter mine xs) mod 256) /\
    el_metas e' = el_metas e /\ el_status e' = el_status e /\ tx_holds (el_tx e') (with_ins v js) /\
    electrum_all_signed dsha hash160 sha256 (rfc2104 (fips_hash fips256 K H) 64) hmac512 (hk_num account) (hk_chain account) v xs js.
Proof.
  intros K H dsha hash160 sha256 hmac512 rz rzs rks account C (H32 & H20 & H64) HS (R1 & R2 & R3) SA e v xs EH AH OK NI NO mine BP.
  exact (sign_code K H C dsha hash160 sha256 hmac512 rz rzs rks H20 HS H32 H64 R1 R2 R3 account SA e v xs EH AH OK NI NO BP).
Qed.
Lemma signed_small : forall K H dsha hash160 sha256 hmac512 k c v xs js, 1 <= len (s_ins v) < 253 -> len (s_outs v) < 253 -> length xs = length (s_ins v) -> no_witnesses v ->
  electrum_all_signed dsha hash160 sha256 (rfc2104 (fips_hash fips256 K H) 64) hmac512 k c v xs js -> small_tx (with_ins v js).
Proof.
  intros K H dsha hash160 sha256 hmac512 k c v xs js NI NO LX NW (LJ & PT). unfold small_tx, with_ins. cbn [s_ins s_outs]. unfold len at 1 2. rewrite LJ. split; [exact NI|]. split; [exact NO|].
  apply Forall_forall. intros i' I'. apply In_nth_error in I' as (j & NJ). assert (LT : (j < length js)%nat) by (apply nth_error_Some; congruence).
  destruct (nth_error (s_ins v) j) as [i|] eqn:N1; [|apply nth_error_None in N1; lia]. destruct (nth_error xs j) as [x|] eqn:N2; [|apply nth_error_None in N2; lia].
  assert (W : si_wit i = []) by (unfold no_witnesses in NW; rewrite Forall_forall in NW; apply NW, (nth_error_In _ _ N1)).
  destruct (PT j i x N1 N2) as (i'' & N3 & S). rewrite NJ in N3. injection N3 as <-. destruct (has_key _ x).
  - destruct S as (d & c' & a & b & r & s & der & _ & _ & _ & _ & ->). unfold electrum_signed. destruct (spends_legacy _); cbn [signed_in si_wit expected_wit]; [rewrite W; reflexivity|reflexivity].
  - subst i'. rewrite W. reflexivity.
Qed.
Theorem flat_file : forall K H dsha hash160 sha256 hmac512 garbage junk rz rzs rks account, fips_constants fips256 K H -> hash_sizes dsha hash160 hmac512 ->
  (forall m, length (sha256 m) = 32%nat /\ bytes_ok (sha256 m)) -> draws rz rzs rks -> is_scalar (hk_num account) ->
  forall e v xs rest, el_status e = DONE -> tx_ok v -> no_witnesses v -> 1 <= len (s_ins v) <= 5 -> len (s_outs v) < 253 ->
  length xs = length (s_ins v) -> Forall einput_ok xs -> Forall key_on_curve xs ->
  let mine := has_key (point_bytes (ec_mul (number (hk_num account)) gen)) in
  Forall (fun x => mine x = true -> bip32_derive hmac512 (hk_num account) (hk_chain account) [e_first x; e_second x] <> None) xs ->
  exists e1 e2 js, el_parse uncompress_pubkey pt_valid_bytes garbage junk e (electrum_segwit v xs ++ rest) = Ok (e1, len (electrum_segwit v xs), rest) /\
    el_sign_code dsha hash160 sha256 hmac512 rz rzs rks e1 account = Ok (e2, len (filter mine xs)) /\
    electrum_all_signed dsha hash160 sha256 (rfc2104 (fips_hash fips256 K H) 64) hmac512 (hk_num account) (hk_chain account) v xs js /\
    gives_slices (el_to_stream e2) (wire_tx (with_ins v js)) /\ el_length e2 = len (wire_tx (with_ins v js)).
Proof.
  intros K H dsha hash160 sha256 hmac512 garbage junk rz rzs rks account C HZ HS DR SA e v xs rest D TX NW NI NO LX OK OC mine BP.
  destruct (segwit_ok garbage junk e v xs rest D TX NW NI NO LX OK OC) as (e1 & P & _ & EH & AH).
  destruct (flat_sign K H dsha hash160 sha256 hmac512 rz rzs rks account C HZ HS DR SA e1 v xs EH AH OK ltac:(lia) ltac:(lia) BP) as (e2 & js & S & _ & _ & TH & ALL).
  fold mine in S. exists e1, e2, js. split; [exact P|]. split.
  - rewrite S. f_equal. f_equal. apply Z.mod_small. split; [apply len_nonneg|].
    assert (FL : forall l, len (filter mine l) <= len l) by (induction l as [|x l IH]; cbn [filter]; [lia|]; destruct (mine x); rewrite ?len_cons; lia).
    pose proof (FL xs). unfold len in *. lia.
  - split; [exact ALL|]. pose proof (signed_small K H dsha hash160 sha256 hmac512 _ _ v xs js ltac:(lia) NO LX NW ALL) as SM.
    destruct (tx_slices (el_tx e2) (with_ins v js) TH SM) as (G & L). split; [exact G|exact L].
Qed.
Theorem chain_ignored : forall K H dsha hash160 sha256 hmac512 rz rzs rks account, fips_constants fips256 K H -> hash_sizes dsha hash160 hmac512 ->
  (forall m, length (sha256 m) = 32%nat /\ bytes_ok (sha256 m)) -> draws rz rzs rks -> is_scalar (hk_num account) ->
  forall e v xs, electrum_holds e v xs -> amounts_hold e xs -> Forall einput_ok xs -> len (s_ins v) < 256 -> len (s_outs v) < 2^64 ->
  Forall (fun x => x_point (e_key x) = point_bytes (ec_mul (number (hk_num account)) gen) /\ x_chain (e_key x) <> hk_chain account) xs ->
  Forall (fun x => bip32_derive hmac512 (hk_num account) (hk_chain account) [e_first x; e_second x] <> None) xs ->
  exists e' js, el_sign_code dsha hash160 sha256 hmac512 rz rzs rks e account = Ok (e', len (s_ins v)) /\ tx_holds (el_tx e') (with_ins v js) /\
    forall j i x i', nth_error (s_ins v) j = Some i -> nth_error xs j = Some x -> nth_error js j = Some i' ->
      electrum_input_signed dsha hash160 sha256 (rfc2104 (fips_hash fips256 K H) 64) hmac512 (hk_num account) (hk_chain account) v j i x i'.
Proof.
  intros K H dsha hash160 sha256 hmac512 rz rzs rks account C HZ HS DR SA e v xs EH AH OK NI NO OTHER BP.
  set (mine := has_key (point_bytes (ec_mul (number (hk_num account)) gen))).
  assert (M : forall x, In x xs -> mine x = true).
  { intros x I. rewrite Forall_forall in OTHER. destruct (OTHER x I) as (Q & _). unfold mine, has_key. rewrite Q. destruct (list_eq_dec _ _ _); [reflexivity|congruence]. }
  destruct (flat_sign K H dsha hash160 sha256 hmac512 rz rzs rks account C HZ HS DR SA e v xs EH AH OK ltac:(lia) NO) as (e' & js & S & _ & _ & TH & (LJ & PT)).
  { eapply Forall_impl; [|exact BP]. auto. }
  exists e', js. fold mine in S, PT. split.
  - rewrite S. f_equal. f_equal. destruct EH as (_ & LX & _).
    assert (FL : filter mine xs = xs) by (clear - M; induction xs as [|x xs IH]; [reflexivity|]; cbn [filter]; rewrite (M x ltac:(left; reflexivity)), IH by (intros; apply M; right; auto); reflexivity).
    rewrite FL. unfold len in *. rewrite LX. apply Z.mod_small. lia.
  - split; [exact TH|]. intros j i x i' N1 N2 N3. destruct (PT j i x N1 N2) as (i'' & N4 & Q). rewrite N3 in N4. injection N4 as <-. rewrite (M x (nth_error_In _ _ N2)) in Q. exact Q.
Qed.
(** Without witnesses the amounts are whatever the memory held, and so is the fee. *)
Theorem legacy_fee : forall garbage e v x rest f, el_status e = DONE -> tx_ok v -> no_witnesses v -> no_scripts v -> len (s_ins v) = 1 -> len (s_outs v) < 253 ->
  einput_ok x -> key_on_curve x -> 0 <= f -> 0 < f + total (map so_value (s_outs v)) < 2^64 ->
  exists junk e', el_parse uncompress_pubkey pt_valid_bytes garbage junk e (electrum_legacy v [x] ++ rest) = Ok (e', len (electrum_legacy v [x]), rest) /\ el_status e' = DONE /\ el_fee e' = Ok f.
Proof.
  intros garbage e v x rest f D TX NW NS NI NO OK OC F0 F. set (a := f + total (map so_value (s_outs v))) in *. set (junk := fun _ : nat => (0, 0, a)).
  assert (L1 : length [x] = length (s_ins v)) by (unfold len in NI; cbn [length]; lia).
  destruct (legacy_ok garbage junk e v [x] rest D TX NW NS ltac:(lia) NO L1 ltac:(constructor; [exact OK|constructor]) ltac:(constructor; [exact OC|constructor])) as (e' & ms & P & S & EH & ME & AM).
  exists junk, e'. split; [exact P|]. split; [exact S|]. cbn [length seq map junk snd] in AM.
  set (y := {| e_key := e_key x; e_first := e_first x; e_second := e_second x; e_amount := a; e_how := e_how x |}).
  assert (EY : electrum_holds e' v [y]).
  { destruct EH as (T & _ & ms' & M1 & M2). split; [exact T|]. split; [exact L1|]. exists ms'. split; [exact M1|]. inversion M2 as [|? ? ? ? M3 M4]; subst. inversion M4; subst. constructor; [exact M3|constructor]. }
  assert (AY : amounts_hold e' [y]) by (exists ms; split; [exact ME|exact AM]).
  assert (OY : einput_ok y) by (destruct OK as (O1 & O2 & O3 & O4 & O5); split; [exact O1|]; split; [exact O2|]; split; [exact O3|]; split; [cbn [y e_amount]; lia|exact O5]).
  pose proof (outs_nonneg e' v [y] EY) as ON.
  rewrite (fee_ok e' v [y] EY AY ltac:(constructor; [exact OY|constructor]) ltac:(constructor; [cbn [y e_amount]; lia|constructor])).
  - cbn [map total fold_right y e_amount]. f_equal. unfold a. lia.
  - cbn [map total fold_right y e_amount]. lia.
  - lia.
Qed.
