(** Signing Electrum's transactions. *)
From Coq Require Import Lia.
From Verif Require Import Base.Bytes Base.BytesFacts Spec.Codecs Spec.Wire Spec.Objects Spec.Keys Spec.HD Spec.Point Spec.Sighash Spec.Electrum
  Model.Conversion Model.Stream Model.Script Model.Tx Model.Sign Model.Point Model.HD Model.PSBT Model.Electrum
  Proof.TxIo Proof.HDPub Proof.SignFacts.
Open Scope Z_scope.

Lemma like_ins : forall l m k, map op_key l = map op_key m -> forall code, signed_ins l k code 1 = signed_ins m k code 1.
Proof.
  intros l m k E code. unfold signed_ins. change (anyonecanpay 1) with false. cbv iota. change (is_none 1 || is_single 1) with false. cbv iota.
  assert (L : length l = length m) by (rewrite <- (map_length op_key l), E, map_length; reflexivity). rewrite L. clear L. generalize (seq 0 (length m)). revert m E.
  induction l as [|a l IH]; intros [|b m] E s; try discriminate E; [reflexivity|]. cbn [map] in E. injection E as E1 E2 E3 E4. destruct s as [|q s]; [reflexivity|].
  cbn [combine map]. rewrite (IH m E4 s). f_equal. unfold with_sig. rewrite E1, E2, E3. reflexivity.
Qed.
Lemma like_outpoints : forall l m, map op_key l = map op_key m -> flat_map outpoint l = flat_map outpoint m /\ flat_map (fun i => le_bytes 4 (si_seq i)) l = flat_map (fun i => le_bytes 4 (si_seq i)) m.
Proof.
  induction l as [|a l IH]; intros [|b m] E; try discriminate E; [split; reflexivity|]. cbn [map] in E. injection E as E1 E2 E3 E4. destruct (IH m E4) as (A & B).
  cbn [flat_map]. unfold outpoint at 1 3. rewrite A, B, E1, E2, E3. split; reflexivity.
Qed.
Lemma list_eqb_iff : forall a b, list_eqb a b = true <-> a = b.
Proof.
  induction a as [|x a IH]; intros [|y b]; cbn [list_eqb]; split; intros E; try discriminate E; try reflexivity.
  - apply andb_prop in E as (E1 & E2). apply Z.eqb_eq in E1 as ->. apply IH in E2 as ->. reflexivity.
  - injection E as <- E. rewrite Z.eqb_refl. apply IH. exact E.
Qed.
Section Sign.
Variables (dsha hash160 sha256 : list Z -> list Z) (hmac512 : list Z -> list Z -> list Z) (mulG : list Z -> list Z) (signer : nat -> list Z -> list Z -> list Z).
Variable account : hdpriv.
Hypothesis H20 : forall m, length (hash160 m) = 20%nat /\ bytes_ok (hash160 m).
Hypothesis H32 : forall m, length (sha256 m) = 32%nat /\ bytes_ok (sha256 m).
(** The secret of a key two steps below the account, its public key, and its signatures. *)
Definition secret (x : s_einput) : list Z :=
  hk_num (hk_child_of hmac512 hash160 mulG (hk_child_of hmac512 hash160 mulG account (e_first x) false) (e_second x) false).
Definition pubkey (x : s_einput) : list Z := sec_of (mulG (secret x)).
Hypothesis PUB : forall x, bytes_ok (pubkey x) /\ len (pubkey x) = 33.
Hypothesis DER : forall n x m, bytes_ok (signer n (secret x) (dsha m)) /\ len (signer n (secret x) (dsha m)) <= 72.

Lemma like_hash : forall v w k i i' x sec, map op_key (s_ins v) = map op_key (s_ins w) -> s_version v = s_version w -> s_outs v = s_outs w -> s_lock v = s_lock w -> op_key i = op_key i' ->
  electrum_hash dsha hash160 v k i x sec = electrum_hash dsha hash160 w k i' x sec.
Proof.
  intros v w k i i' x sec E V O L I. unfold op_key in I. injection I as I1 I2 I3. unfold electrum_hash. destruct (spends_legacy _).
  - unfold legacy_preimage, legacy_body. rewrite V, O, L, (like_ins _ _ k E). reflexivity.
  - unfold bip143_preimage, bip143_body. destruct (like_outpoints _ _ E) as (-> & ->). rewrite V, O, L. unfold outpoint. rewrite I1, I2, I3. reflexivity.
Qed.
Lemma wpkh_holds : forall sec, script_holds (script_of_pubkey hash160 sec P2WPKH) ([0; 20] ++ hash160 sec).
Proof.
  intros sec. destruct (H20 sec) as (L & B). unfold script_holds, script_of_pubkey, script_with. cbn [sc_arr sc_len].
  assert (LL : len ([0; 20] ++ hash160 sec) = 22) by (rewrite len_app; unfold len; rewrite L; reflexivity). rewrite LL. repeat split; auto; try lia.
  apply Forall_app. split; [repeat constructor; unfold byte_ok; lia|exact B].
Qed.
Definition signed_input (v : s_tx) (k : nat) (i : s_txin) (x : s_einput) (i' : s_txin) : Prop :=
  if has_key (hp_point (to_pub mulG account)) x
  then exists n, i' = electrum_signed hash160 sha256 i x (pubkey x) (signer n (secret x) (electrum_hash dsha hash160 v k i x (pubkey x)))
  else i' = i.
Lemma update_mid : forall {A} (l r : list A) x y, update (l ++ x :: r) (length l) y = l ++ y :: r.
Proof.
  intros A l r x y. unfold update. rewrite firstn_app, firstn_all, Nat.sub_diag. cbn [firstn]. rewrite app_nil_r.
  rewrite skipn_app, skipn_all2 by lia. replace (S (length l) - length l)%nat with 1%nat by lia. reflexivity.
Qed.
Lemma legacy_types : forall ty, signs_legacy ty = spends_legacy ty.
Proof. intros []; reflexivity. Qed.
Definition own (x : s_einput) : bool := has_key (hp_point (to_pub mulG account)) x.
Lemma key_eq : forall m x, meta_holds m x -> list_eqb (hp_point (to_pub mulG account)) (hp_point (em_hd m)) = own x.
Proof.
  intros m x ((E & _) & _). unfold own, has_key. rewrite E. destruct (list_eq_dec Z.eq_dec (x_point (e_key x)) (hp_point (to_pub mulG account))) as [->|N].
  - apply list_eqb_iff. reflexivity.
  - apply not_true_is_false. intros Q. apply list_eqb_iff in Q. congruence.
Qed.
Lemma one_input : forall v t ds i is m x res n, tx_holds t (with_ins v (ds ++ i :: is)) -> len (s_outs v) < 2^64 -> (length ds + length (i :: is) <= 256)%nat ->
  map op_key (ds ++ i :: is) = map op_key (s_ins v) -> meta_holds m x -> em_amount m = e_amount x ->
  exists t' i', el_sign_input dsha hash160 sha256 hmac512 mulG signer account (len ds) m (t, res, n) =
      Ok (t', if own x then u8 (res + 1) else res, if own x then S n else n) /\
    tx_holds t' (with_ins v (ds ++ i' :: is)) /\ op_key i' = op_key i /\ signed_input v (length ds) i x i'.
Proof.
  intros v t ds i is m x res n H NO NI LK MH AM. unfold el_sign_input. rewrite (key_eq m x MH). unfold signed_input. fold (own x). destruct (own x).
  2: { exists t, i. split; [reflexivity|]. split; [exact H|]. split; reflexivity. }
  destruct MH as ((K1 & K2 & K3 & K4 & K5 & K6 & K7) & D0 & D1).
  assert (SEC : child_secret hash160 hmac512 mulG account m = secret x) by (unfold child_secret, secret; rewrite D0, D1; reflexivity).
  rewrite SEC. fold (pubkey x). rewrite K7, AM, legacy_types.
  assert (I8 : (length ds < 256)%nat) by (cbn [length] in NI; lia).
  assert (NT : nth_error (s_ins (with_ins v (ds ++ i :: is))) (length ds) = Some i) by (cbn [with_ins s_ins]; rewrite nth_error_app2, Nat.sub_diag by lia; reflexivity).
  assert (U : u8 (len ds) = Z.of_nat (length ds)) by (unfold u8, len; rewrite Z.mod_small; lia).
  destruct (PUB x) as (P1 & P2). rewrite U.
  assert (HS : forall w, electrum_hash dsha hash160 (with_ins v (ds ++ i :: is)) (length ds) i x w = electrum_hash dsha hash160 v (length ds) i x w) by (intros w; apply like_hash; auto).
  destruct (spends_legacy (x_type (e_key x))) eqn:SL.
  - destruct (sign_legacy_at dsha (pubkey x) (signer n (secret x)) ltac:(split; [exact P1|lia]) (DER n x) t (with_ins v (ds ++ i :: is)) (length ds) i
      (script_of_pubkey hash160 (pubkey x) P2PKH) (key_code (hash160 (pubkey x))) SIGHASH_ALL true H) as (t' & der & E1 & E2 & E3); auto.
    + cbn [with_ins s_ins]. unfold len. rewrite app_length. lia.
    + apply (p2pkh_holds hash160 (pubkey x) H20).
    + unfold key_code. rewrite !len_app. destruct (H20 (pubkey x)) as (L & _). unfold len. rewrite L. cbn [length]. lia.
    + split; [|auto]. intros _. exists (hash160 (pubkey x)). split; [apply H20|reflexivity].
    + exists t', (signed_in i (expected_sig true (pubkey x) der (key_code (hash160 (pubkey x)))) (si_wit i)). rewrite E2. cbn [bind fst]. split; [reflexivity|].
      split; [|split; [reflexivity|]].
      * unfold with_in, with_ins in E3. cbn [s_version s_ins s_outs s_lock] in E3. rewrite update_mid in E3. exact E3.
      * exists n. unfold electrum_signed. rewrite SL. rewrite <- HS. unfold electrum_hash. rewrite SL. rewrite E1. reflexivity.
  - destruct (sign_segwit_at dsha hash160 sha256 (pubkey x) (signer n (secret x)) H20 H32 ltac:(split; [exact P1|lia]) (DER n x) t (with_ins v (ds ++ i :: is)) (length ds) i
      (script_of_pubkey hash160 (pubkey x) P2WPKH) ([0; 20] ++ hash160 (pubkey x)) (e_amount x) (x_type (e_key x)) SIGHASH_ALL true H) as (t' & der & E1 & E2 & E3); auto.
    + apply wpkh_holds.
    + rewrite !len_app. destruct (H20 (pubkey x)) as (L & _). unfold len. rewrite L. cbn [length]. lia.
    + split; [|auto]. intros _. exists (hash160 (pubkey x)). split; [apply H20|reflexivity].
    + eexists t', _. rewrite E2. cbn [bind fst]. split; [reflexivity|].
      unfold with_in, with_ins in E3. cbn [s_version s_ins s_outs s_lock] in E3. rewrite update_mid in E3. split; [exact E3|]. split; [reflexivity|].
      exists n. unfold electrum_signed. rewrite SL. rewrite <- HS. unfold electrum_hash. rewrite SL. rewrite E1. reflexivity.
Qed.
Lemma all_inputs : forall v is ms xs ds t res n, tx_holds t (with_ins v (ds ++ is)) -> len (s_outs v) < 2^64 -> (length ds + length is <= 256)%nat ->
  map op_key (ds ++ is) = map op_key (s_ins v) -> Forall2 meta_holds ms xs -> map em_amount ms = map e_amount xs -> length xs = length is -> 0 <= res < 256 ->
  exists t' js n', el_sign_inputs dsha hash160 sha256 hmac512 mulG signer account (len ds) ms (t, res, n) = Ok (t', u8 (res + len (filter own xs)), n') /\
    tx_holds t' (with_ins v (ds ++ js)) /\ length js = length is /\
    forall j i x, nth_error is j = Some i -> nth_error xs j = Some x -> exists i', nth_error js j = Some i' /\ signed_input v (length ds + j) i x i'.
Proof.
  intros v is ms xs ds t res n H NO NI LK F AM LX R. revert is ds t res n H NI LK LX R. induction F as [|m x ms xs M F IH]; intros is ds t res n H NI LK LX R.
  - destruct is; [|discriminate LX]. exists t, [], n. cbn [el_sign_inputs filter]. rewrite len_nil, Z.add_0_r. unfold u8. rewrite Z.mod_small by lia.
    split; [reflexivity|]. split; [exact H|]. split; [reflexivity|]. intros [|j] i x E; discriminate E.
  - destruct is as [|i is]; [discriminate LX|]. cbn [map] in AM. injection AM as A1 A2.
    destruct (one_input v t ds i is m x res n H NO NI LK M A1) as (t1 & i1 & E1 & H1 & K1 & S1).
    set (res1 := if own x then u8 (res + 1) else res) in *. set (n1 := if own x then S n else n) in *.
    assert (R1 : 0 <= res1 < 256) by (unfold res1; destruct (own x); [unfold u8; apply Z.mod_pos_bound; lia|exact R]).
    destruct (IH A2 is (ds ++ [i1]) t1 res1 n1) as (t' & js & n' & E & H' & LJ & PT).
    + rewrite <- app_assoc. exact H1.
    + rewrite app_length. cbn [length] in *. lia.
    + rewrite <- app_assoc. cbn [app]. rewrite map_app in *. cbn [map] in *. rewrite K1. exact LK.
    + cbn [length] in LX. lia.
    + exact R1.
    + exists t', (i1 :: js), n'. cbn [el_sign_inputs]. rewrite E1. cbn [bind]. rewrite len_app, len_cons, len_nil in E. replace (len ds + (1 + 0)) with (len ds + 1) in E by lia. rewrite E.
      split; [|split; [|split]].
      * do 3 f_equal. cbn [filter]. unfold res1. destruct (own x); [|reflexivity]. rewrite len_cons. unfold u8. rewrite Zplus_mod_idemp_l. f_equal. lia.
      * rewrite <- app_assoc in H'. exact H'.
      * cbn [length]. lia.
      * intros [|j] i0 x0 N1 N2.
        -- cbn [nth_error] in *. injection N1 as <-. injection N2 as <-. exists i1. split; [reflexivity|]. rewrite Nat.add_0_r. exact S1.
        -- cbn [nth_error] in *. destruct (PT j i0 x0 N1 N2) as (i' & N' & S'). exists i'. split; [exact N'|]. rewrite app_length in S'. cbn [length] in S'. replace (length ds + S j)%nat with (length ds + 1 + j)%nat by lia. exact S'.
Qed.
Theorem sign_all : forall e v xs, electrum_holds e v xs -> amounts_hold e xs -> len (s_ins v) <= 256 -> len (s_outs v) < 2^64 ->
  exists e' js, el_sign dsha hash160 sha256 hmac512 mulG signer e account = Ok (e', len (filter own xs) mod 256) /\
    el_metas e' = el_metas e /\ el_status e' = el_status e /\ tx_holds (el_tx e') (with_ins v js) /\ length js = length (s_ins v) /\
    forall j i x, nth_error (s_ins v) j = Some i -> nth_error xs j = Some x -> exists i', nth_error js j = Some i' /\ signed_input v j i x i'.
Proof.
  intros e v xs (TH & LX & ms & ME & MH) (ms' & ME' & AM) NI NO. rewrite ME in ME'. injection ME' as <-.
  destruct v as [ver ins outs lock]. cbn [s_ins s_outs] in *.
  destruct (all_inputs {| s_version := ver; s_ins := ins; s_outs := outs; s_lock := lock |} ins ms xs [] (el_tx e) 0 O TH NO) as (t' & js & n' & E & H' & LJ & PT); auto.
  { cbn [length]. unfold len in NI. lia. } { lia. }
  exists (mkEl t' (el_segwit e) (el_metas e) (el_status e) (el_parsed e)), js. unfold el_sign. rewrite ME. cbn [bind]. change (len []) with 0 in E. rewrite E. cbn [bind].
  split; [f_equal; f_equal; rewrite Z.add_0_l; reflexivity|]. split; [reflexivity|]. split; [reflexivity|]. split; [exact H'|]. split; [exact LJ|]. exact PT.
Qed.
End Sign.
