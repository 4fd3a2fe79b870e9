(** Properties of parsing Electrum's unsigned transactions. *)
From Coq Require Import Lia.
From Verif Require Import Base.Bytes Base.BytesFacts Spec.Codecs Spec.Wire Spec.Objects Spec.Keys Spec.HD Spec.Point Spec.Sighash Spec.Electrum
  Model.Conversion Model.Stream Model.Script Model.Tx Model.Sign Model.Point Model.HD Model.Networks Model.Electrum
  Proof.IntVarint Proof.StreamFacts Proof.ScriptFacts Proof.TxIo Proof.IoProps Proof.TxSer Proof.TxParse Proof.HDFacts Proof.HDPub Proof.PointProps Proof.PointHD Proof.ElectrumParse.
Open Scope Z_scope.

Lemma F2_len' : forall {A B} (R : A -> B -> Prop) l m, Forall2 R l m -> length l = length m.
Proof. intros A B R l m F. induction F; cbn [length]; auto. Qed.
Lemma key_bytes : forall x, xpub_ok x -> exists v, slip132_pub (x_test x) (x_type x) = Some v /\
  xpub_bytes x = bip32_bytes v (x_depth x) (x_fp x) (x_child x) (x_chain x) (compressed (x_point x)).
Proof. intros x (S & _). unfold xpub_bytes. destruct (slip132_pub (x_test x) (x_type x)) as [v|]; [|congruence]. eauto. Qed.
Lemma compressed_len : forall pt, length pt = 64%nat -> length (compressed pt) = 33%nat.
Proof. intros pt L. rewrite <- sec_compressed. apply sec_len; auto. Qed.
Lemma bip32_len : forall v d fp c ch key, length fp = 4%nat -> length ch = 32%nat -> length key = 33%nat -> len (bip32_bytes v d fp c ch key) = 78.
Proof. intros v d fp c ch key A B C. unfold bip32_bytes, len. rewrite !app_length, !be_bytes_length, A, B, C. reflexivity. Qed.

Section Props.
Variable garbage : list Z.
Variable junk : nat -> Z * Z * Z.
Notation parse := (el_parse uncompress_pubkey pt_valid_bytes garbage junk).
Notation hparse := (hp_parse uncompress_pubkey pt_valid_bytes garbage).
Notation kb := (fun x => xpub_bytes (e_key x)).

Definition key_of (x : s_einput) : hdpub :=
  let k := e_key x in
  mkHp (x_point k) (x_chain k) (x_depth k) (x_fp k) (x_child k) (net_of (x_test k)) (x_type k)
    (match slip132_pub (x_test k) (x_type k) with Some v => be_bytes 4 v | None => [] end) DONE 78.
Lemma hp_new_sized : hp_sized hp_new.
Proof. repeat split. Qed.
Lemma key_reads : forall x rest, xpub_ok (e_key x) -> key_on_curve x -> hparse hp_new (xpub_bytes (e_key x) ++ rest) = Ok (key_of x, 78, rest).
Proof.
  intros x rest OK (a & b & O & E). destruct (key_bytes _ OK) as (v & S & B). rewrite B. destruct OK as (_ & D & F1 & F2 & C & H1 & H2 & P1 & P2).
  rewrite (hp_reads uncompress_pubkey pt_valid_bytes garbage (x_test (e_key x)) (x_type (e_key x)) v) by (auto using hp_new_sized, compressed_len).
  rewrite <- sec_compressed, E, sec_of_coords, uncompress_coords_ok by auto. cbn [bind]. rewrite valid_bytes_ok by auto.
  unfold key_of. rewrite S, <- E. reflexivity.
Qed.
Lemma key_read : forall x, xpub_ok (e_key x) -> key_on_curve x -> read_key uncompress_pubkey pt_valid_bytes garbage kb x (key_of x).
Proof.
  intros x OK O. split; [|intros rest; apply key_reads; auto]. destruct (key_bytes _ OK) as (v & S & B). rewrite B. destruct OK as (_ & D & F1 & F2 & C & H1 & H2 & P1 & P2).
  apply bip32_len; auto using compressed_len.
Qed.
Lemma ok_fine : forall x, einput_ok x -> fine x.
Proof. intros x (_ & A & B & C & D). repeat split; tauto. Qed.
Lemma holds_key : forall x d0 d1 a, d0 = e_first x -> d1 = e_second x -> meta_holds (mkEm (key_of x) d0 d1 a) x.
Proof. intros x d0 d1 a -> ->. unfold meta_holds, xpub_holds, key_of. cbn. auto 10. Qed.
Lemma told_holds : forall xs, Forall2 meta_holds (map (fun p => told (fst p) (snd p)) (combine xs (map key_of xs))) xs.
Proof. induction xs as [|x xs IH]; cbn [map combine]; [constructor|]. constructor; [apply holds_key; reflexivity|exact IH]. Qed.
Lemma told_amounts : forall xs, map em_amount (map (fun p => told (fst p) (snd p)) (combine xs (map key_of xs))) = map e_amount xs.
Proof. induction xs as [|x xs IH]; cbn [map combine fst snd told em_amount]; [reflexivity|]. rewrite IH. reflexivity. Qed.

Lemma head_big : forall x n, Forall (fun b => 253 <= b) (firstn (n - 5) (le_bytes 8 (e_amount x))) -> Forall (fun b => 253 <= b) (firstn n (head13 x)).
Proof.
  intros x n F. unfold head13. rewrite firstn_app. cbn [length]. apply Forall_app. split; [|exact F].
  assert (G : Forall (fun b => 253 <= b) [254; 255; 255; 255; 255]) by (repeat constructor; lia).
  rewrite <- (firstn_skipn n) in G. apply Forall_app in G. tauto.
Qed.
(** Up to thirteen inputs: the first bytes of the first amount may get lost. *)
Lemma segwit_generic : forall e v x xs rest, el_status e = DONE -> tx_ok v -> no_witnesses v -> 1 <= len (s_ins v) <= 13 -> len (s_outs v) < 253 ->
  length (x :: xs) = length (s_ins v) -> Forall einput_ok (x :: xs) -> Forall key_on_curve (x :: xs) ->
  Forall (fun b => 253 <= b) (firstn (length (s_ins v) - 5) (le_bytes 8 (e_amount x))) ->
  exists e', parse e (electrum_segwit v (x :: xs) ++ rest) = Ok (e', len (electrum_segwit v (x :: xs)), rest) /\ el_status e' = DONE /\ electrum_holds e' v (x :: xs) /\
    exists ms, el_metas e' = Some ms /\ map em_amount ms = without (length (s_ins v) - 5) (e_amount x) :: map e_amount xs.
Proof.
  intros e v x xs rest D TX NW NI NO LX OK OC BIG.
  pose proof (Forall_impl _ ok_fine OK) as FF.
  assert (R : Forall2 (read_key uncompress_pubkey pt_valid_bytes garbage kb) xs (map key_of xs)).
  { apply Forall_inv_tail in OK, OC. clear - OK OC. induction xs as [|y ys IH]; cbn [map]; [constructor|]. apply Forall_cons_iff in OK as (O1 & O2). apply Forall_cons_iff in OC as (C1 & C2).
    constructor; [apply key_read; [apply O1|auto]|auto]. }
  assert (R1 : read_key uncompress_pubkey pt_valid_bytes garbage kb x (key_of x)) by (apply key_read; [apply (Forall_inv OK)|apply (Forall_inv OC)]).
  pose proof (segwit_parse uncompress_pubkey pt_valid_bytes garbage junk kb e v x xs (key_of x) (map key_of xs) rest D TX ltac:(lia) NO LX ltac:(unfold len in NI; lia) FF R1 R (head_big x _ BIG)) as P.
  eexists. split; [exact P|]. split; [reflexivity|]. split.
  - split; [|split; [exact LX|]].
    + cbn [el_tx]. destruct v as [ver ins outs lock]. apply (clean_holds {| s_version := ver; s_ins := ins; s_outs := outs; s_lock := lock |}); auto; [rewrite firstn_length, head_len; cbn [s_ins]; cbn [s_ins] in NI; unfold len in NI; lia|apply TX].
    + eexists. split; [reflexivity|]. constructor; [apply holds_key; reflexivity|apply told_holds].
  - eexists. split; [reflexivity|]. cbn [map em_amount]. rewrite told_amounts. reflexivity.
Qed.
Theorem segwit_ok : forall e v xs rest, el_status e = DONE -> tx_ok v -> no_witnesses v -> 1 <= len (s_ins v) <= 5 -> len (s_outs v) < 253 ->
  length xs = length (s_ins v) -> Forall einput_ok xs -> Forall key_on_curve xs ->
  exists e', parse e (electrum_segwit v xs ++ rest) = Ok (e', len (electrum_segwit v xs), rest) /\ el_status e' = DONE /\ electrum_holds e' v xs /\ amounts_hold e' xs.
Proof.
  intros e v [|x xs] rest D TX NW NI NO LX OK OC; [unfold len in NI; cbn [length] in LX; lia|].
  assert (Z0 : (length (s_ins v) - 5 = 0)%nat) by (unfold len in NI; lia).
  destruct (segwit_generic e v x xs rest D TX NW ltac:(lia) NO LX OK OC) as (e' & P & S & H & ms & M1 & M2); [rewrite Z0; constructor|].
  exists e'. split; [exact P|]. split; [exact S|]. split; [exact H|]. exists ms. split; [exact M1|]. rewrite M2, Z0, without_0. reflexivity.
Qed.
Lemma big_bytes : forall k m a, (1 <= k)%nat -> (k <= m)%nat -> 0 <= a -> Forall (fun b => 253 <= b) (firstn k (le_bytes m a)) -> 0 < a mod 256 ^ Z.of_nat k.
Proof.
  intros [|k] [|m] a K M A F; try lia. cbn [le_bytes firstn] in F. apply Forall_inv in F.
  rewrite Nat2Z.inj_succ, Z.pow_succ_r by lia. assert (P : 0 < 256 ^ Z.of_nat k) by (apply Z.pow_pos_nonneg; lia).
  rewrite Z.rem_mul_r by lia. pose proof (Z.mod_pos_bound (a / 256) (256 ^ Z.of_nat k) P). lia.
Qed.
Theorem segwit_lost : forall e v x xs rest, el_status e = DONE -> tx_ok v -> no_witnesses v -> 6 <= len (s_ins v) <= 13 -> len (s_outs v) < 253 ->
  length (x :: xs) = length (s_ins v) -> Forall einput_ok (x :: xs) -> Forall key_on_curve (x :: xs) ->
  let k := (length (s_ins v) - 5)%nat in
  Forall (fun b => 253 <= b) (firstn k (le_bytes 8 (e_amount x))) ->
  exists e' ms, parse e (electrum_segwit v (x :: xs) ++ rest) = Ok (e', len (electrum_segwit v (x :: xs)), rest) /\ el_status e' = DONE /\ electrum_holds e' v (x :: xs) /\
    el_metas e' = Some ms /\ map em_amount ms = (e_amount x - e_amount x mod 256 ^ Z.of_nat k) :: map e_amount xs /\ ~ amounts_hold e' (x :: xs).
Proof.
  intros e v x xs rest D TX NW NI NO LX OK OC k BIG.
  destruct (segwit_generic e v x xs rest D TX NW ltac:(lia) NO LX OK OC BIG) as (e' & P & S & H & ms & M1 & M2).
  exists e', ms. do 4 (split; [assumption|]). split; [exact M2|]. intros (ms' & N1 & N2). rewrite M1 in N1. injection N1 as <-. rewrite M2 in N2. cbn [map] in N2.
  apply (f_equal (hd 0)) in N2. cbn [hd] in N2. unfold without in N2.
  pose proof (big_bytes k 8 (e_amount x)) as BB. unfold len in NI. specialize (BB ltac:(unfold k; lia) ltac:(unfold k; lia)). destruct (Forall_inv OK) as (_ & _ & _ & (A & _) & _).
  specialize (BB A BIG). unfold k in BB. lia.
Qed.

(** ** Keys of an unknown kind *)
Lemma unknown_net : forall px, (forall test t v, slip132_pub test t = Some v -> px <> be_bytes 4 v) -> find_net pub_type_in px networks = None.
Proof.
  intros px U. destruct (find_net pub_type_in px networks) as [[net t]|] eqn:E; [|reflexivity].
  destruct (pub_prefix_only _ _ _ E) as (test & v & _ & S & P). destruct (U test t v S P).
Qed.
Lemma hp_unknown : forall px st, length px = 4%nat -> find_net pub_type_in px networks = None ->
  exists k, hparse hp_new (px ++ st) = Ok (k, 4, st) /\ hp_status k = FAILED.
Proof.
  intros px st L N. destruct px as [|p0 [|p1 [|p2 [|p3 [|]]]]]; try discriminate L. unfold hp_parse. change (hp_status hp_new) with DONE. cbv iota.
  unfold hp_body, hp_start. cbn [hp_parsed]. rewrite hp_prefix_loop by reflexivity. rewrite N. cbn [hp_status]. eexists. split; reflexivity.
Qed.
Lemma hd_endless : forall px c st limit pos, length px = 4%nat -> find_net pub_type_in px networks = None -> pos + 4 < limit ->
  hd_loop uncompress_pubkey pt_valid_bytes garbage (length (px ++ c :: st)) limit pos hp_new (px ++ c :: st) = UB.
Proof.
  intros px c st limit pos L N P. destruct (hp_unknown px (c :: st) L N) as (k & H & F).
  rewrite app_length, L. cbn [length Nat.add]. destruct (px ++ c :: st) as [|b r] eqn:Q; [destruct px; discriminate Q|].
  cbn [hd_loop]. destruct (Z.ltb_spec pos limit); [|lia]. rewrite H. cbn [bind]. change (4 =? 0) with false. cbv iota.
  cbn [hd_loop]. destruct (Z.ltb_spec (pos + 4) limit); [|lia]. unfold hp_parse at 1. rewrite F. reflexivity.
Qed.
Lemma meta_endless : forall x px c st n start, fine x -> length px = 4%nat -> find_net pub_type_in px networks = None -> (n <= 5)%nat ->
  segwit_meta uncompress_pubkey pt_valid_bytes garbage start (start + Z.of_nat n) (mkEm hp_new 0 0 0) (skipn n (head13 x) ++ e_how x ++ px ++ c :: st) = UB.
Proof.
  intros x px c st n start (F1 & F2 & F3 & F4) L N K. unfold segwit_meta. cbn [em_hd em_d0 em_d1 em_amount].
  assert (X : skip_loop (start + 5) (start + Z.of_nat n) (skipn n (head13 x) ++ e_how x ++ px ++ c :: st) = (start + 5, le_bytes 8 (e_amount x) ++ e_how x ++ px ++ c :: st)).
  { unfold head13. rewrite skipn_app. cbn [length]. replace (n - 5)%nat with 0%nat by lia. rewrite <- app_assoc. cbn [skipn].
    apply skip_app. unfold len. rewrite skipn_length. cbn [length]. lia. }
  rewrite X. pose proof (amount_loop (e_amount x) 0 (start + 5) (e_how x ++ px ++ c :: st) F3 ltac:(lia)) as A.
  change (Z.of_nat 0) with 0 in A. rewrite Z.add_0_r in A. cbn [skipn] in A. replace (start + 13) with (start + 5 + 8) by lia. rewrite A.
  rewrite (skip_app (e_how x)) by (unfold len; lia). rewrite hd_endless by (auto; lia). reflexivity.
Qed.
Lemma metas_endless : forall good x more px c st start, Forall fine good -> Forall2 (read_key uncompress_pubkey pt_valid_bytes garbage kb) good (map key_of good) ->
  fine x -> length px = 4%nat -> find_net pub_type_in px networks = None ->
  segwit_metas uncompress_pubkey pt_valid_bytes garbage start start (map (fun _ => mkEm hp_new 0 0 0) (good ++ x :: more))
    (flat_map (fun x => witness_with (xpub_bytes (e_key x)) x) good ++ head13 x ++ e_how x ++ px ++ c :: st) = UB.
Proof.
  intros good x more px c st start F R FX L N. revert start. induction good as [|y good IH]; intros start; cbn [app map segwit_metas flat_map].
  - pose proof (meta_endless x px c st 0 start FX L N ltac:(lia)) as M. change (Z.of_nat 0) with 0 in M. rewrite Z.add_0_r in M. cbn [skipn] in M. rewrite M. reflexivity.
  - apply Forall_cons_iff in F as (G1 & G2). cbn [map] in R. inversion R as [|? ? ? ? R1 R2]; subst. unfold witness_with at 1. rewrite <- !app_assoc.
    pose proof (meta_ok uncompress_pubkey pt_valid_bytes garbage kb y (key_of y) 0 start (flat_map (fun x => witness_with (xpub_bytes (e_key x)) x) good ++ head13 x ++ e_how x ++ px ++ c :: st) G1 R1 ltac:(lia)) as M.
    unfold head13 at 1 in M. cbn [skipn] in M. rewrite <- !app_assoc in M. change (Z.of_nat 0) with 0 in M. rewrite Z.add_0_r in M. rewrite M. cbn [bind].
    rewrite IH by auto. reflexivity.
Qed.
Lemma keys_read : forall xs, Forall einput_ok xs -> Forall key_on_curve xs -> Forall2 (read_key uncompress_pubkey pt_valid_bytes garbage kb) xs (map key_of xs).
Proof.
  induction xs as [|y ys IH]; intros OK OC; cbn [map]; [constructor|]. apply Forall_cons_iff in OK as (O1 & O2). apply Forall_cons_iff in OC as (C1 & C2).
  constructor; [apply key_read; [apply O1|auto]|auto].
Qed.
Theorem unknown_endless : forall e v good x px c rest, el_status e = DONE -> tx_ok v -> 1 <= len (s_ins v) <= 5 -> len (s_outs v) < 253 ->
  (length good < length (s_ins v))%nat -> Forall einput_ok good -> Forall key_on_curve good -> 0 <= e_first x < 2^16 -> 0 <= e_second x < 2^16 -> 0 <= e_amount x < 2^64 -> length (e_how x) = 7%nat ->
  length px = 4%nat -> (forall test t w, slip132_pub test t = Some w -> px <> be_bytes 4 w) ->
  parse e (electrum_magic ++ before_witness v ++ flat_map (fun y => witness_with (xpub_bytes (e_key y)) y) good ++
           ([254; 255; 255; 255; 255] ++ le_bytes 8 (e_amount x) ++ e_how x ++ px ++ c :: rest)) = UB.
Proof.
  intros e v good x px c rest D TX NI NO LG OK OC X1 X2 X3 X4 L U. pose proof (unknown_net px U) as N. assert (FX : fine x) by (repeat split; tauto).
  pose proof (Forall_impl _ ok_fine OK) as FG. pose proof (keys_read good OK OC) as R.
  set (n := length (s_ins v)). assert (n <= 5)%nat by (unfold n; unfold len in NI; lia). assert (1 <= n)%nat by (unfold n; unfold len in NI; lia).
  set (st := flat_map (fun y => witness_with (xpub_bytes (e_key y)) y) good ++ _).
  assert (ST : exists tl, st = [254; 255; 255; 255; 255] ++ tl).
  { unfold st. destruct good as [|y good]; [cbn [flat_map app]; eexists; reflexivity|]. cbn [flat_map]. unfold witness_with at 1. rewrite <- !app_assoc. cbn [app]. eexists; reflexivity. }
  destruct ST as (tl & ST).
  rewrite <- (firstn_skipn n st).
  assert (LB : length (firstn n st) = length (s_ins v)) by (rewrite ST, firstn_length, app_length; cbn [length]; lia).
  assert (BIG : Forall (fun b => 253 <= b) (firstn n st)).
  { rewrite ST, firstn_app. cbn [length]. replace (n - 5)%nat with 0%nat by lia. cbn [firstn]. rewrite app_nil_r.
    assert (G : Forall (fun b => 253 <= b) [254; 255; 255; 255; 255]) by (repeat constructor; lia).
    rewrite <- (firstn_skipn n) in G. apply Forall_app in G. tauto. }
  rewrite el_front by (auto; lia). unfold segwit_body. rewrite clean_length by (auto; lia).
  replace (6 + (len (before_witness v) + 2) + 2 - 4) with (6 + len (before_witness v)) by lia.
  replace (6 + (len (before_witness v) + len (s_ins v))) with (6 + len (before_witness v) + Z.of_nat n) by (unfold len, n; lia).
  assert (M : exists more, length (good ++ x :: more) = length (s_ins v)).
  { exists (repeat x (length (s_ins v) - length good - 1)). rewrite app_length. cbn [length]. rewrite repeat_length. lia. }
  destruct M as (more & M). rewrite (map_same (mkEm hp_new 0 0 0) (s_ins v) (good ++ x :: more)) by auto.
  destruct good as [|y good]; cbn [app map segwit_metas].
  - unfold st. cbn [flat_map app]. change (254 :: 255 :: 255 :: 255 :: 255 :: le_bytes 8 (e_amount x) ++ e_how x ++ px ++ c :: rest) with (head13 x ++ e_how x ++ px ++ c :: rest).
    rewrite skipn_app, head_len. replace (n - 13)%nat with 0%nat by lia. cbn [skipn]. rewrite meta_endless by auto. reflexivity.
  - apply Forall_cons_iff in FG as (G1 & G2). cbn [map] in R. inversion R as [|? ? ? ? R1 R2]; subst.
    assert (W : skipn n st = skipn n (head13 y) ++ e_how y ++ xpub_bytes (e_key y) ++ e_path y ++ (flat_map (fun y => witness_with (xpub_bytes (e_key y)) y) good ++ head13 x ++ e_how x ++ px ++ c :: rest)).
    { transitivity (skipn n (head13 y ++ e_how y ++ xpub_bytes (e_key y) ++ e_path y ++ (flat_map (fun y => witness_with (xpub_bytes (e_key y)) y) good ++ head13 x ++ e_how x ++ px ++ c :: rest))).
      - f_equal. unfold st. cbn [flat_map]. unfold witness_with at 1. unfold head13. rewrite <- !app_assoc. reflexivity.
      - rewrite skipn_app, head_len. replace (n - 13)%nat with 0%nat by lia. reflexivity. }
    rewrite W. rewrite (meta_ok uncompress_pubkey pt_valid_bytes garbage kb y (key_of y)) by (auto; lia). cbn [bind].
    rewrite metas_endless by auto. reflexivity.
Qed.

(** ** Keys that are not on the curve *)
Theorem off_curve_taken : forall e v x w c xs rest, el_status e = DONE -> tx_ok v -> no_witnesses v -> len (s_ins v) = 1 -> len (s_outs v) < 253 -> einput_ok x ->
  slip132_pub (x_test (e_key x)) (x_type (e_key x)) = Some w -> c = 2 \/ c = 3 -> bytes_ok xs -> length xs = 32%nat ->
  (forall y, on_curve (be_val 256 xs) y -> y mod 2 <> c mod 2) ->
  let bs := segwit_with (fun x => let k := e_key x in bip32_bytes w (x_depth k) (x_fp k) (x_child k) (x_chain k) (c :: xs)) v [x] in
  exists e' m, parse e (bs ++ rest) = Ok (e', len bs, rest) /\ el_status e' = DONE /\ tx_holds (el_tx e') v /\ el_metas e' = Some [m] /\
    hp_point (em_hd m) = garbage /\ em_d0 m = e_first x /\ em_d1 m = e_second x /\ em_amount m = e_amount x.
Proof.
  intros e v x w c xs rest D TX NW NI NO OK S C B L OFF bs.
  assert (N1 : length (s_ins v) = 1%nat) by (unfold len in NI; lia).
  destruct OK as ((_ & D1 & F1 & F2 & C1 & H1 & H2 & P1 & P2) & OK2).
  assert (U : uncompress_pubkey (c :: xs) garbage = Ok garbage).
  { destruct (uncompress_33 c xs garbage C B L) as [(y & O & M & _)|(_ & U)]; [destruct (OFF y O M)|exact U]. }
  assert (R : read_key uncompress_pubkey pt_valid_bytes garbage (fun x => let k := e_key x in bip32_bytes w (x_depth k) (x_fp k) (x_child k) (x_chain k) (c :: xs)) x
     (let k := e_key x in mkHp garbage (x_chain k) (x_depth k) (x_fp k) (x_child k) (net_of (x_test k)) (x_type k) (be_bytes 4 w) (if pt_valid_bytes garbage then DONE else FAILED) 78)).
  { split; [apply bip32_len; auto; cbn [length]; lia|]. intros r. cbv zeta.
    rewrite (hp_reads uncompress_pubkey pt_valid_bytes garbage (x_test (e_key x)) (x_type (e_key x)) w) by (auto using hp_new_sized; cbn [length]; lia).
    rewrite U. reflexivity. }
  assert (FX : fine x) by (repeat split; tauto).
  pose proof (segwit_parse uncompress_pubkey pt_valid_bytes garbage junk _ e v x [] _ [] rest D TX ltac:(lia) NO ltac:(rewrite N1; reflexivity) ltac:(rewrite N1; lia)
    ltac:(constructor; [exact FX|constructor]) R ltac:(constructor) ltac:(rewrite N1; cbn [firstn head13 app]; constructor; [lia|constructor])) as P.
  rewrite N1 in P. cbn [Nat.sub] in P. rewrite without_0 in P. cbn [combine map] in P.
  eexists. eexists. split; [exact P|]. split; [reflexivity|]. split; [|split; [reflexivity|repeat split]].
  cbn [el_tx]. destruct v as [ver ins outs lock]. apply (clean_holds {| s_version := ver; s_ins := ins; s_outs := outs; s_lock := lock |}); [exact TX|exact NW|cbn [s_ins] in *; rewrite N1; reflexivity|apply TX].
Qed.

(** ** Transactions without witnesses *)
Lemma xpub_bytes_ok : forall x, xpub_ok (e_key x) -> bytes_ok (xpub_bytes (e_key x)).
Proof.
  intros x OK. destruct (key_bytes _ OK) as (v & S & B). rewrite B. destruct OK as (_ & D & F1 & F2 & C & H1 & H2 & P1 & P2).
  unfold bip32_bytes. unfold bytes_ok in *. rewrite !Forall_app. split; [apply be_bytes_ok|]. split; [constructor; [exact D|constructor]|].
  split; [exact F2|]. split; [apply be_bytes_ok|]. split; [exact H2|]. unfold compressed. rewrite <- (firstn_skipn 32) in P2. apply Forall_app in P2 as (P3 & P4).
  constructor; [unfold byte_ok; destruct (Z.odd _); lia|exact P3].
Qed.
Lemma script_87 : forall x, einput_ok x -> bytes_ok (electrum_script x) /\ len (electrum_script x) = 87.
Proof.
  intros x (OK & A1 & A2 & _). split.
  - unfold electrum_script, e_path, bytes_ok. rewrite !Forall_app. split; [repeat constructor; unfold byte_ok; lia|]. split; [apply xpub_bytes_ok; auto|]. split; apply le_bytes_ok.
  - destruct (key_bytes _ OK) as (v & S & B). unfold electrum_script, e_path. rewrite B, !len_app, !len_le_bytes.
    destruct OK as (_ & D & F1 & F2 & C & H1 & H2 & P1 & P2). rewrite bip32_len by auto using compressed_len. reflexivity.
Qed.
Definition legacy_in (i : s_txin) (x : s_einput) : s_txin := with_sig i (electrum_script x) (si_seq i).
Definition cleared (i : txin) : txin :=
  mkTxin (ti_hash i) (ti_index i) (script_assign (ti_script i) script_new) (ti_seq i) (ti_wit i) (ti_status i) (ti_parsed i).
Lemma path_u16 : forall a, 0 <= a < 2^16 -> u16 (a mod 256 + (a / 256) mod 256 * 256) = a.
Proof. intros a A. unfold u16. change (2^16) with 65536 in *. dlia. Qed.
Lemma nth_tail : forall (l m : list Z) k d n, length l = n -> nth (n + k) (l ++ m) d = nth k m d.
Proof. intros l m k d n <-. rewrite app_nth2 by lia. f_equal. lia. Qed.
Lemma legacy_meta_ok : forall i x m, em_hd m = hp_new -> einput_ok x -> key_on_curve x ->
  legacy_meta uncompress_pubkey pt_valid_bytes garbage (pin0 (legacy_in i x)) m = Ok (cleared (pin0 (legacy_in i x)), mkEm (key_of x) (e_first x) (e_second x) (em_amount m), false).
Proof.
  intros i x m M OK OC. destruct (script_87 x OK) as (B & L). unfold legacy_meta.
  change (ti_script (pin0 (legacy_in i x))) with (parsed_script (electrum_script x)).
  assert (W : wire_bytes (electrum_script x) = 87 :: electrum_script x) by (unfold wire_bytes; rewrite L; reflexivity).
  rewrite parsed_script_length by (auto; lia). rewrite W, len_cons, L. change (1 + 87 =? 88) with true. cbv iota.
  assert (S : serializes (script_to_stream (parsed_script (electrum_script x))) (87 :: electrum_script x)).
  { pose proof (script_serializes (parsed_script (electrum_script x)) ltac:(apply parsed_script_wf; auto; lia)) as S. cbn [sc_arr parsed_script] in S. rewrite W in S. exact S. }
  rewrite (serialize_full _ _ 88 S) by (cbn [length]; unfold len in L; lia). cbn [bind snd fst].
  assert (K : skipn 6 (87 :: electrum_script x) = xpub_bytes (e_key x) ++ e_path x) by reflexivity.
  rewrite K, M, key_reads by (auto; apply OK). cbn [bind fst snd]. change (hp_status (key_of x)) with DONE. cbv iota.
  destruct OK as (OK & A1 & A2 & _).
  set (a := [87; 1; 255; 76; 83; 255] ++ xpub_bytes (e_key x)).
  assert (E : 87 :: electrum_script x = a ++ e_path x) by (unfold a, electrum_script; rewrite <- app_assoc; reflexivity).
  assert (LA : length a = 84%nat).
  { unfold a. rewrite app_length. destruct (key_read x OK OC) as (KL & _). unfold len in KL. cbn [length]. lia. }
  rewrite E. pose proof (nth_tail a (e_path x) 0 0 84 LA : nth 84 (a ++ e_path x) 0 = _) as N0. pose proof (nth_tail a (e_path x) 1 0 84 LA : nth 85 (a ++ e_path x) 0 = _) as N1.
  pose proof (nth_tail a (e_path x) 2 0 84 LA : nth 86 (a ++ e_path x) 0 = _) as N2. pose proof (nth_tail a (e_path x) 3 0 84 LA : nth 87 (a ++ e_path x) 0 = _) as N3.
  rewrite N0, N1, N2, N3. unfold e_path. cbn [le_bytes app nth]. rewrite !path_u16 by auto. reflexivity.
Qed.
Lemma legacy_metas_ok : forall is xs ms, length xs = length is -> length ms = length is -> Forall (fun m => em_hd m = hp_new) ms ->
  Forall einput_ok xs -> Forall key_on_curve xs ->
  legacy_metas uncompress_pubkey pt_valid_bytes garbage (map pin0 (map (fun p => legacy_in (fst p) (snd p)) (combine is xs))) ms =
  Ok (map cleared (map pin0 (map (fun p => legacy_in (fst p) (snd p)) (combine is xs))),
      map (fun p => mkEm (key_of (fst p)) (e_first (fst p)) (e_second (fst p)) (em_amount (snd p))) (combine xs ms), false).
Proof.
  induction is as [|i is IH]; intros [|x xs] [|m ms] L1 L2 F OK OC; try discriminate L1; try discriminate L2; [reflexivity|].
  apply Forall_cons_iff in F as (M1 & M2). apply Forall_cons_iff in OK as (O1 & O2). apply Forall_cons_iff in OC as (C1 & C2).
  cbn [combine map fst snd legacy_metas]. rewrite legacy_meta_ok by auto. cbn [bind]. rewrite IH by auto. reflexivity.
Qed.
Lemma cleared_holds : forall i x, in_ok i -> si_sig i = [] -> si_wit i = [] -> txin_holds (cleared (pin0 (legacy_in i x))) i.
Proof.
  intros i x (P1 & P2 & P3 & P4 & P5 & P6 & P7) S W. unfold txin_holds, cleared, pin0. cbn [parsed_in ti_hash ti_index ti_script ti_seq ti_wit legacy_in with_sig si_prev si_vout si_seq].
  split; [reflexivity|]. split; [exact P1|]. split; [exact P2|]. split; [reflexivity|]. split; [exact P3|]. rewrite S, W.
  split; [unfold script_holds; cbn; split; [reflexivity|]; split; [reflexivity|]; split; [constructor|reflexivity]|].
  split; [reflexivity|]. split; [exact P4|]. unfold witness_holds. cbn. split; [reflexivity|]. split; [reflexivity|]. split; [reflexivity|]. split; [constructor|reflexivity].
Qed.
Lemma legacy_wire : forall v xs, has_witness (with_scripts v xs) = false.
Proof.
  intros v xs. unfold has_witness, with_scripts. cbn [s_ins]. apply not_true_is_false. intros E. apply existsb_exists in E as (x & I & E).
  apply in_map_iff in I as (p & <- & _). discriminate E.
Qed.
Lemma legacy_told : forall xs ms, length ms = length xs ->
  Forall2 meta_holds (map (fun p => mkEm (key_of (fst p)) (e_first (fst p)) (e_second (fst p)) (em_amount (snd p))) (combine xs ms)) xs /\
  map em_amount (map (fun p => mkEm (key_of (fst p)) (e_first (fst p)) (e_second (fst p)) (em_amount (snd p))) (combine xs ms)) = map em_amount ms.
Proof.
  induction xs as [|x xs IH]; intros [|m ms] L; try discriminate L; cbn [combine map fst snd em_amount]; [split; [constructor|reflexivity]|].
  destruct (IH ms) as (A & B); [injection L; auto|]. split; [constructor; [apply holds_key; reflexivity|exact A]|rewrite B; reflexivity].
Qed.
Theorem legacy_ok : forall e v xs rest, el_status e = DONE -> tx_ok v -> no_witnesses v -> no_scripts v -> 1 <= len (s_ins v) < 253 -> len (s_outs v) < 253 ->
  length xs = length (s_ins v) -> Forall einput_ok xs -> Forall key_on_curve xs ->
  exists e' ms, parse e (electrum_legacy v xs ++ rest) = Ok (e', len (electrum_legacy v xs), rest) /\ el_status e' = DONE /\ electrum_holds e' v xs /\
    el_metas e' = Some ms /\ map em_amount ms = map (fun j => snd (junk j)) (seq 0 (length xs)).
Proof.
  intros e v xs rest D TX NW NS NI NO LX OK OC. destruct TX as (V & LK & FI & FO).
  assert (LC : length (s_ins (with_scripts v xs)) = length (s_ins v)) by (unfold with_scripts; cbn [s_ins]; rewrite map_length, combine_length; lia).
  assert (TX' : tx_ok (with_scripts v xs)).
  { unfold tx_ok, with_scripts. cbn [s_version s_lock s_ins s_outs]. split; [exact V|]. split; [exact LK|]. split; [|exact FO].
    apply Forall_map, Forall_forall. intros (i & x) I. cbn [fst snd]. pose proof (in_combine_l _ _ _ _ I) as I1. pose proof (in_combine_r _ _ _ _ I) as I2.
    rewrite Forall_forall in FI, OK. destruct (FI i I1) as (P1 & P2 & P3 & P4 & P5 & P6 & P7). destruct (script_87 x (OK x I2)) as (Q1 & Q2).
    unfold in_ok, with_sig. cbn [si_prev si_vout si_sig si_seq si_wit]. rewrite Q2. split; [exact P1|]. split; [exact P2|]. split; [exact P3|]. split; [exact P4|]. split; [exact Q1|]. split; [lia|constructor]. }
  assert (WF : Forall wit_ok (s_ins (with_scripts v xs))).
  { unfold with_scripts. cbn [s_ins]. apply Forall_map, Forall_forall. intros (i & x) I. unfold wit_ok, with_sig. cbn. split; [reflexivity|]. split; [constructor|reflexivity]. }
  assert (LL : len (s_ins (with_scripts v xs)) = len (s_ins v)) by (unfold len; rewrite LC; reflexivity).
  pose proof (tx_parse_wire tx_new (with_scripts v xs) rest eq_refl TX' WF ltac:(rewrite LL; exact NI) NO) as P.
  assert (WL : wire_tx (with_scripts v xs) = wire_legacy (with_scripts v xs)) by (unfold wire_tx; rewrite legacy_wire; reflexivity).
  unfold parsed_tx in P. rewrite legacy_wire, WL in P. cbn [b2z] in P.
  unfold el_parse. rewrite D. unfold el_body. cbn [el_parsed el_segwit el_tx el_metas]. unfold electrum_legacy. rewrite <- app_assoc, prefix_ok. cbn [negb andb].
  assert (NE : forall r, (match wire_legacy (with_scripts v xs) ++ r with [] => false | _ :: _ => true end) = true) by reflexivity.
  rewrite NE. change (negb (pstatus_eqb (t_status tx_new) FAILED)) with true. cbn [andb]. cbv iota.
  rewrite P. cbn [bind t_status t_ins]. unfold with_scripts at 1 2. cbn [s_ins].
  change (fun p : s_txin * s_einput => with_sig (fst p) (electrum_script (snd p)) (si_seq (fst p))) with (fun p : s_txin * s_einput => legacy_in (fst p) (snd p)).
  set (n := length (map pin0 (map (fun p => legacy_in (fst p) (snd p)) (combine (s_ins v) xs)))).
  assert (N : n = length xs) by (unfold n; rewrite !map_length, combine_length; lia).
  rewrite legacy_metas_ok; auto; [|unfold new_metas; rewrite map_length, seq_length; lia|].
  2: { unfold new_metas. apply Forall_map, Forall_forall. intros j _. unfold new_meta. destruct (junk j) as [[a b] c]. reflexivity. }
  cbn [bind t_version t_outs t_lock t_segflag t_parsed]. unfold el_after. cbn [t_status pstatus_eqb andb].
  eexists. eexists. split; [rewrite len_app; do 3 f_equal; rewrite len_magic; lia|]. split; [reflexivity|]. split; [|split; [reflexivity|]].
  - split; [|split; [exact LX|]].
    + cbn [el_tx]. unfold tx_holds. cbn [t_version t_lock t_ins t_outs]. split; [reflexivity|]. split; [exact V|]. split; [reflexivity|]. split; [exact LK|]. split.
      * unfold no_witnesses in NW. unfold no_scripts in NS. clear - FI LX NW NS. revert xs LX. induction (s_ins v) as [|i l IH]; intros [|x xs] LX; try discriminate LX; cbn [combine map fst snd]; [constructor|].
        apply Forall_cons_iff in FI as (I1 & I2). apply Forall_cons_iff in NW as (N1 & N2). apply Forall_cons_iff in NS as (S1 & S2).
        constructor; [apply cleared_holds; auto|apply IH; auto].
      * apply F2_map. eapply Forall_impl; [|exact FO]. intros o (O1 & O2 & O3). unfold txout_holds. cbn [parsed_out to_amount to_script].
        split; [reflexivity|]. split; [exact O1|apply parsed_script_holds; auto].
    + eexists. split; [reflexivity|]. rewrite N. apply legacy_told. unfold new_metas. rewrite map_length, seq_length. reflexivity.
  - rewrite N. rewrite (proj2 (legacy_told xs (new_metas junk (length xs)) ltac:(unfold new_metas; rewrite map_length, seq_length; reflexivity))).
    unfold new_metas. rewrite map_map. apply map_ext. intros j. unfold new_meta. destruct (junk j) as [[a b] c]. reflexivity.
Qed.
End Props.
