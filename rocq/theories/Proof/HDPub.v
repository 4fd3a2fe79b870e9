(** Extended public keys. *)
From Coq Require Import Lia.
From Verif Require Import Base.Bytes Base.BytesFacts Model.Conversion Model.Stream Model.Networks Model.Keys Model.HD
  Spec.Codecs Spec.StreamOps Spec.Wire Spec.Objects Spec.Keys Spec.HD
  Proof.BaseN Proof.Base58 Proof.StreamFacts Proof.Chunks Proof.SigFacts Proof.IoProps Proof.BaseDec Proof.KeyFacts Proof.HDFacts Proof.HDProps.
From Verif Require Import Model.Sign.
Open Scope Z_scope.

Lemma set_nth_app1 : forall a b i v, (i < length a)%nat -> set_nth (a ++ b) i v = set_nth a i v ++ b.
Proof.
  induction a as [|x a IH]; intros b [|i] v H; cbn [length] in H; [lia|lia|reflexivity|].
  cbn [app set_nth]. rewrite IH by lia. reflexivity.
Qed.
Lemma hp_step : forall k k' pos c t, pos < 78 -> hp_store k pos c = k' -> hp_status k' <> FAILED ->
  hp_loop k pos (c :: t) = hp_loop k' (pos + 1) t.
Proof.
  intros k k' pos c t H <- N. cbn [hp_loop]. destruct (Z.ltb_spec pos 78); [|lia]. cbv zeta.
  destruct (hp_status (hp_store k pos c)); congruence.
Qed.
Lemma hp_child_step : forall pt ch dp fp cn net ty px ps pos c t, 9 <= pos < 13 ->
  hp_loop (mkHp pt ch dp fp cn net ty px INCOMPLETE ps) pos (c :: t) =
  hp_loop (mkHp pt ch dp fp (u32 (u32 (cn * 256) + c)) net ty px INCOMPLETE ps) (pos + 1) t.
Proof. intros. apply hp_step; [lia| |discriminate]. unfold hp_store. decide_pos. reflexivity. Qed.
Lemma hp_prefix_step : forall pt ch dp fp cn net ty px ps pos c t, 0 <= pos < 3 ->
  hp_loop (mkHp pt ch dp fp cn net ty px INCOMPLETE ps) pos (c :: t) =
  hp_loop (mkHp pt ch dp fp cn net ty (set_nth px (Z.to_nat pos) c) INCOMPLETE ps) (pos + 1) t.
Proof. intros. apply hp_step; [lia| |discriminate]. unfold hp_store. decide_pos. reflexivity. Qed.
Lemma hp_fields : forall old33 old31 ch dp fp cn net ty px ps dp' fp' a b c d ch' key rest,
  length old33 = 33%nat -> length ch = 32%nat -> length fp = 4%nat ->
  length key = 33%nat -> length ch' = 32%nat -> length fp' = 4%nat -> bytes_ok [a; b; c; d] ->
  hp_loop (mkHp (old33 ++ old31) ch dp fp cn net ty px INCOMPLETE ps) 4 ([dp'] ++ fp' ++ [a; b; c; d] ++ ch' ++ key ++ rest) =
  (mkHp (key ++ old31) ch' dp' fp' (be_val 256 [a; b; c; d]) net ty px INCOMPLETE ps, 78, rest).
Proof.
  intros o33 o31 ch dp fp cn net ty px ps dp' fp' a b c d ch' key rest L1 L2 L3 L4 L5 L6 B.
  cbn [app]. rewrite (hp_step _ (mkHp (o33 ++ o31) ch dp' fp cn net ty px INCOMPLETE ps)) by (lia || reflexivity || discriminate).
  change (4 + 1) with 5.
  rewrite (fill_all _ hp_loop (fun f => mkHp (o33 ++ o31) ch dp' f cn net ty px INCOMPLETE ps) 5 4); auto.
  2: { intros arr i x r La Hi. cbn [hp_loop]. unfold hp_store. decide_pos. cbn [hp_status].
       replace (5 + i - 5) with i by lia. reflexivity. }
  change (5 + Z.of_nat 4) with 9. cbn [app].
  inversion B as [|? ? A1 B1]; subst. inversion B1 as [|? ? A2 B2]; subst. inversion B2 as [|? ? A3 B3]; subst. inversion B3 as [|? ? A4 _]; subst.
  rewrite !hp_child_step by lia.
  rewrite u32_child by auto. change (9 + 1 + 1 + 1 + 1) with 13.
  rewrite (fill_all _ hp_loop (fun f => mkHp (o33 ++ o31) f dp' fp' (be_val 256 [a; b; c; d]) net ty px INCOMPLETE ps) 13 32); auto.
  2: { intros arr i x r La Hi. cbn [hp_loop]. unfold hp_store. decide_pos. cbn [hp_status].
       replace (13 + i - 13) with i by lia. reflexivity. }
  change (13 + Z.of_nat 32) with 45.
  rewrite (fill_all _ hp_loop (fun f => mkHp (f ++ o31) ch' dp' fp' (be_val 256 [a; b; c; d]) net ty px INCOMPLETE ps) 45 33); auto.
  2: { intros arr i x r La Hi. cbn [hp_loop]. unfold hp_store. decide_pos. cbn [hp_status].
       replace (45 + i - 45) with i by lia. rewrite set_nth_app1 by lia. reflexivity. }
  change (45 + Z.of_nat 33) with 78. destruct rest; reflexivity.
Qed.
Lemma hp_prefix_loop : forall pt ch dp fp cn net ty px ps p0 p1 p2 p3 rest, length px = 4%nat ->
  hp_loop (mkHp pt ch dp fp cn net ty px INCOMPLETE ps) 0 ([p0; p1; p2; p3] ++ rest) =
  match find_net pub_type_in [p0; p1; p2; p3] networks with
  | Some (net', ty') => hp_loop (mkHp pt ch dp fp cn net' ty' [p0; p1; p2; p3] INCOMPLETE ps) 4 rest
  | None => (mkHp pt ch dp fp cn net ty [p0; p1; p2; p3] FAILED ps, 4, rest)
  end.
Proof.
  intros pt ch dp fp cn net ty px ps p0 p1 p2 p3 rest L.
  destruct px as [|x0 [|x1 [|x2 [|x3 [|]]]]]; try discriminate. cbn [app].
  rewrite !hp_prefix_step by lia. change (Z.to_nat 0) with 0%nat. change (Z.to_nat (0 + 1)) with 1%nat. change (Z.to_nat (0 + 1 + 1)) with 2%nat. cbn [set_nth].
  cbn [hp_loop]. change (0 + 1 + 1 + 1 <? 78) with true. cbv iota zeta.
  change (hp_store (mkHp pt ch dp fp cn net ty [p0; p1; p2; x3] INCOMPLETE ps) (0 + 1 + 1 + 1) p3) with
    (match find_net pub_type_in [p0; p1; p2; p3] networks with
     | Some (net', ty') => mkHp pt ch dp fp cn net' ty' [p0; p1; p2; p3] INCOMPLETE ps
     | None => mkHp pt ch dp fp cn net ty [p0; p1; p2; p3] FAILED ps end).
  destruct (find_net pub_type_in [p0; p1; p2; p3] networks) as [[net' ty']|]; reflexivity.
Qed.

Section Pub.
Variable uncompress : list Z -> list Z -> outcome (list Z).
Variable pt_valid : list Z -> bool.
Variable garbage : list Z.
Notation parse := (hp_parse uncompress pt_valid garbage).
Lemma hp_parse_all : forall k px dp fp cn ch key rest, hp_sized k -> hp_status k = DONE ->
  length px = 4%nat -> length fp = 4%nat -> length cn = 4%nat -> length ch = 32%nat -> length key = 33%nat -> bytes_ok cn ->
  parse k (px ++ [dp] ++ fp ++ cn ++ ch ++ key ++ rest) =
  match find_net pub_type_in px networks with
  | None => Ok (mkHp (hp_point k) (hp_chain k) (hp_depth k) (hp_fp k) (hp_child k) (hp_net k) (hp_type k) px FAILED 0, 4,
             [dp] ++ fp ++ cn ++ ch ++ key ++ rest)
  | Some (net, ty) =>
      let! pt := uncompress key garbage in
      Ok (mkHp pt ch dp fp (be_val 256 cn) net ty px (if pt_valid pt then DONE else FAILED) 78, 78, rest)
  end.
Proof.
  intros k px dp fp cn ch key rest (S1 & S2 & S3 & S4) D L1 L2 L3 L4 L5 B. unfold hp_parse. rewrite D.
  destruct px as [|p0 [|p1 [|p2 [|p3 [|]]]]]; try discriminate.
  destruct cn as [|c0 [|c1 [|c2 [|c3 [|]]]]]; try discriminate.
  unfold hp_body, hp_start. cbn [hp_parsed]. rewrite hp_prefix_loop by exact S4.
  destruct (find_net pub_type_in [p0; p1; p2; p3] networks) as [[net ty]|]; [|reflexivity].
  destruct (take 33 (hp_point k) ltac:(lia)) as (o33 & o31 & E & L6). rewrite E.
  rewrite hp_fields by assumption. cbn [hp_status]. unfold hp_finish. change (78 =? 78) with true. cbv iota.
  rewrite firstn_app_len by auto. destruct (uncompress key garbage); reflexivity.
Qed.
Lemma hp_hex_spec : forall test t v k, slip132_pub test t = Some v -> hp_net k = net_of test -> hp_type k = t ->
  hp_hex k = bip32_bytes v (hp_depth k) (hp_fp k) (hp_child k) (hp_chain k) (sec_of (hp_point k)).
Proof.
  intros test t v k H N T. unfold hp_hex, bip32_bytes. rewrite N, T. destruct (pub_prefix test t v H) as [-> _].
  rewrite be32_spec. reflexivity.
Qed.
Lemma hp_reads : forall test t v dp fp cn ch key k0 rest, slip132_pub test t = Some v -> hp_sized k0 -> hp_status k0 = DONE ->
  length fp = 4%nat -> length ch = 32%nat -> length key = 33%nat -> 0 <= cn < 2^32 ->
  parse k0 (bip32_bytes v dp fp cn ch key ++ rest) =
  let! pt := uncompress key garbage in
  Ok (mkHp pt ch dp fp cn (net_of test) t (be_bytes 4 v) (if pt_valid pt then DONE else FAILED) 78, 78, rest).
Proof.
  intros test t v dp fp cn ch key k0 rest H S D L1 L2 L3 C. unfold bip32_bytes.
  destruct (be4 v) as (V1 & V2 & _). destruct (be4 cn) as (C1 & C2 & C3).
  rewrite <- !app_assoc.
  rewrite hp_parse_all by auto. destruct (pub_prefix test t v H) as [_ ->]. rewrite C3 by auto. reflexivity.
Qed.
Lemma sec_len : forall pt, length pt = 64%nat -> length (sec_of pt) = 33%nat.
Proof. intros pt L. unfold sec_of. cbn [length]. rewrite firstn_length_le by lia. reflexivity. Qed.
Lemma hp_roundtrip : forall test t v k k0 rest, slip132_pub test t = Some v -> hp_net k = net_of test -> hp_type k = t ->
  hp_sized k -> hp_valued k -> hp_sized k0 -> hp_status k0 = DONE ->
  uncompress (sec_of (hp_point k)) garbage = Ok (hp_point k) -> pt_valid (hp_point k) = true ->
  hp_hex k = bip32_bytes v (hp_depth k) (hp_fp k) (hp_child k) (hp_chain k) (sec_of (hp_point k)) /\
  parse k0 (hp_hex k ++ rest) =
  Ok (mkHp (hp_point k) (hp_chain k) (hp_depth k) (hp_fp k) (hp_child k) (hp_net k) (hp_type k) (be_bytes 4 v) DONE 78, 78, rest).
Proof.
  intros test t v k k0 rest H N T (S1 & S2 & S3 & S4) (V1 & V2 & V3 & V4 & V5) S0 D0 U PV.
  pose proof (hp_hex_spec test t v k H N T) as E. split; [exact E|]. rewrite E.
  rewrite (hp_reads test t v) by (auto using sec_len). rewrite U. cbn [bind]. rewrite PV, N, T. reflexivity.
Qed.
Lemma hp_slices : forall k, hp_sized k -> In (hp_net k) networks -> gives_slices (hp_to_stream k) (hp_hex k).
Proof.
  intros k (S1 & S2 & S3 & S4) N. apply serializes_slices.
  apply (writes_serializes _ (write_loop 78 0 78 (hp_hex k))); [|reflexivity].
  assert (L : len (hp_hex k) = 78).
  { unfold hp_hex. rewrite be32_spec, !len_app. unfold len. destruct (be4 (hp_child k)) as [C _].
    rewrite S2, S3, C. rewrite firstn_length_le by lia.
    assert (P : length (pub_version (hp_net k) (hp_type k)) = 4%nat); [|rewrite P; reflexivity].
    destruct N as [<-|[<-|[<-|[<-|[]]]]]; destruct (hp_type k); reflexivity. }
  apply writes_loop_all; [lia|unfold len in L; lia].
Qed.

(** In pieces. *)
Definition hp_setp (k : hdpub) (ps : Z) : hdpub :=
  mkHp (hp_point k) (hp_chain k) (hp_depth k) (hp_fp k) (hp_child k) (hp_net k) (hp_type k) (hp_prefix k) (hp_status k) ps.
Notation hp_fin := (hp_finish uncompress pt_valid garbage).
Lemma hp_loop_g : forall st k pos, hp_loop k pos st = gloop _ hp_store hp_status k pos st.
Proof.
  induction st as [|c st IH]; intros k pos; [reflexivity|]. cbn [hp_loop gloop]. destruct (pos <? 78); [|reflexivity].
  destruct (hp_status (hp_store k pos c)); auto.
Qed.
Lemma hp_body_g : forall k st, hp_body uncompress pt_valid garbage k st = gbody _ hp_store hp_status hp_parsed hp_fin k st.
Proof.
  intros k st. unfold hp_body, gbody. rewrite hp_loop_g. destruct (gloop _ _ _ _ _ _) as [[k' pos] rest].
  destruct (hp_status k'); reflexivity.
Qed.
Lemma hp_parse_g : forall k st, parse k st = gparse _ hp_store hp_status hp_parsed hp_start hp_fin k st.
Proof. intros k st. unfold hp_parse, gparse. destruct (hp_status k); [apply hp_body_g|apply hp_body_g|reflexivity]. Qed.
Lemma hp_h1 : forall k p c, hp_status k = INCOMPLETE -> hp_status (hp_store k p c) = INCOMPLETE \/ hp_status (hp_store k p c) = FAILED.
Proof.
  intros [pt ch dp fp cn net ty px st ps] pos c S. cbn [hp_status] in S. subst st. unfold hp_store.
  repeat match goal with |- context [if ?x then _ else _] => destruct x end; cbn [hp_status]; auto.
  destruct (find_net _ _ _) as [[? ?]|]; cbn [hp_status]; auto.
Qed.
Lemma hp_h2 : forall k ps p c, hp_store (hp_setp k ps) p c = hp_setp (hp_store k p c) ps.
Proof.
  intros [pt ch dp fp cn net ty px st ps] ps' pos c. unfold hp_store, hp_setp. cbn [hp_point hp_chain hp_depth hp_fp hp_child hp_net hp_type hp_prefix hp_status].
  repeat match goal with |- context [if pos <? ?x then _ else _] => destruct (pos <? x) end; try reflexivity.
  destruct (pos =? 3); [|reflexivity]. destruct (find_net _ _ _) as [[? ?]|]; reflexivity.
Qed.
Lemma hp_h8 : forall k, hp_status k = INCOMPLETE -> hp_start k (hp_parsed k) = k.
Proof. intros [] H. cbn in H. subst. reflexivity. Qed.
Lemma hp_h9 : forall k p, p <> 78 -> hp_fin k p = Ok (hp_setp k p).
Proof. intros [] p H. unfold hp_finish. destruct (Z.eqb_spec p 78); [congruence|reflexivity]. Qed.
Lemma hp_h11 : forall k k', hp_fin k 78 = Ok k' -> hp_status k' <> INCOMPLETE.
Proof.
  intros [pt ch dp fp cn net ty px st ps] k' H. cbn [hp_finish] in H. change (78 =? 78) with true in H. cbv iota in H.
  destruct (uncompress (firstn 33 pt) garbage) as [pt'|]; [|discriminate]. cbn [bind] in H. injection H as <-. cbn [hp_status].
  destruct (pt_valid pt'); discriminate.
Qed.
Lemma hp_chunks : forall k, hp_status k <> INCOMPLETE -> chunk_invariant parse hp_status k.
Proof.
  intros k H. apply (chunk_invariant_ext _ (gparse _ hp_store hp_status hp_parsed hp_start hp_fin)).
  { intros. symmetry. apply hp_parse_g. }
  apply (gchunks _ hp_store hp_status hp_parsed hp_setp hp_start hp_fin);
    [apply hp_h1|apply hp_h2|reflexivity|reflexivity|reflexivity|reflexivity|reflexivity|apply hp_h8|apply hp_h9
    |intros [] ?; reflexivity|apply hp_h11|intros X; congruence].
Qed.
Lemma hp_sound : forall k0 st k n rest, hp_sized k0 -> hp_status k0 = DONE -> bytes_ok st -> parse k0 st = Ok (k, n, rest) ->
  hp_status k = DONE ->
  exists test v key, slip132_pub test (hp_type k) = Some v /\ hp_net k = net_of test /\ n = 78 /\
    st = bip32_bytes v (hp_depth k) (hp_fp k) (hp_child k) (hp_chain k) key ++ rest /\
    length key = 33%nat /\ uncompress key garbage = Ok (hp_point k) /\ pt_valid (hp_point k) = true.
Proof.
  intros k0 st k n rest S0 D0 B H D.
  assert (L : 78 <= len st).
  { apply (gparse_done _ hp_store hp_status hp_parsed hp_setp hp_start hp_fin
      hp_h1 (fun _ _ => eq_refl) (fun _ _ => eq_refl) (fun _ _ => eq_refl) hp_h9 k0 st k n rest); auto. }
  unfold len in L.
  destruct (take 4 st ltac:(lia)) as (px & r1 & -> & L1). rewrite app_length in L.
  destruct (take 1 r1 ltac:(lia)) as (dp' & r2 & -> & L2). rewrite app_length in L. destruct dp' as [|dp [|]]; try discriminate.
  destruct (take 4 r2 ltac:(cbn in L; lia)) as (fp & r3 & -> & L3). rewrite app_length in L. cbn [length] in L.
  destruct (take 4 r3 ltac:(lia)) as (cn & r4 & -> & L4). rewrite app_length in L.
  destruct (take 32 r4 ltac:(lia)) as (ch & r5 & -> & L5). rewrite app_length in L.
  destruct (take 33 r5 ltac:(lia)) as (key & r6 & -> & L6).
  rewrite !bytes_ok_app in B. destruct B as (B1 & B2 & B3 & B4 & B5 & B6 & B7).
  rewrite hp_parse_all in H by auto.
  destruct (find_net pub_type_in px networks) as [[net ty]|] eqn:E; [|injection H as <- _ _; discriminate].
  destruct (uncompress key garbage) as [pt|] eqn:U; [|discriminate]. cbn [bind] in H.
  injection H as <- <- <-. cbn [hp_status] in D. destruct (pt_valid pt) eqn:PV; [|discriminate].
  destruct (pub_prefix_only px net ty E) as (test & v & -> & SL & ->).
  exists test, v, key. cbn [hp_type hp_net hp_depth hp_fp hp_child hp_chain hp_point].
  split; [exact SL|]. split; [reflexivity|]. split; [reflexivity|]. split; [|auto].
  unfold bip32_bytes. rewrite <- L4, be_bytes_of_val by auto. rewrite <- !app_assoc. rewrite L4. reflexivity.
Qed.
Section Text.
Variable dsha : list Z -> list Z.
Hypothesis dsha_len : forall m, length (dsha m) = 32%nat.
Hypothesis dsha_ok : forall m, bytes_ok (dsha m).
Lemma hp_hex_facts : forall k, hp_sized k -> hp_valued k -> In (hp_net k) networks -> bytes_ok (hp_hex k) /\ len (hp_hex k) = 78 /\ hd 0 (hp_hex k) <> 0.
Proof.
  intros k (S1 & S2 & S3 & S4) (V1 & V2 & V3 & V4 & V5) N.
  assert (P : length (pub_version (hp_net k) (hp_type k)) = 4%nat /\ bytes_ok (pub_version (hp_net k) (hp_type k)) /\ hd 0 (pub_version (hp_net k) (hp_type k)) <> 0).
  { destruct N as [<-|[<-|[<-|[<-|[]]]]]; destruct (hp_type k); (split; [reflexivity|]; split; [repeat constructor; cbn; lia|discriminate]). }
  destruct P as (P1 & P2 & P3). unfold hp_hex. rewrite be32_spec. destruct (be4 (hp_child k)) as (C1 & C2 & _).
  split; [|split].
  - rewrite !bytes_ok_app. assert (D : bytes_ok [hp_depth k]) by (constructor; [exact V4|constructor]).
    assert (D0 : bytes_ok [2 + Z.land (nth 63 (hp_point k) 0) 1]).
    { constructor; [|constructor]. change 1 with (Z.ones 1). rewrite Z.land_ones by lia. change (2^1) with 2. unfold byte_ok.
      pose proof (Z.mod_pos_bound (nth 63 (hp_point k) 0) 2 ltac:(lia)). lia. }
    pose proof (bytes_ok_firstn 32 _ V1). tauto.
  - rewrite !len_app. unfold len. rewrite S2, S3, P1, C1. rewrite firstn_length_le by lia. reflexivity.
  - destruct (pub_version (hp_net k) (hp_type k)); [discriminate|exact P3].
Qed.
Lemma xpub_roundtrip : forall test t v k k0 out, slip132_pub test t = Some v -> hp_net k = net_of test -> hp_type k = t ->
  hp_sized k -> hp_valued k -> hp_sized k0 -> hp_status k0 = DONE ->
  uncompress (sec_of (hp_point k)) garbage = Ok (hp_point k) -> pt_valid (hp_point k) = true -> 112 <= len out ->
  exists text, xpub_text dsha k out = (len text, text ++ zeros (length out - length text)) /\
    base58check_text dsha (bip32_bytes v (hp_depth k) (hp_fp k) (hp_child k) (hp_chain k) (sec_of (hp_point k))) text /\
    hp_from_str dsha uncompress pt_valid garbage k0 text =
      Ok (len text, mkHp (hp_point k) (hp_chain k) (hp_depth k) (hp_fp k) (hp_child k) (hp_net k) (hp_type k) (be_bytes 4 v) DONE 78).
Proof.
  intros test t v k k0 out H N T S V S0 D0 U PV LO.
  destruct (hp_hex_facts k S V ltac:(rewrite N; apply net_of_in)) as (F1 & F2 & F3).
  destruct (text_writes dsha dsha_len dsha_ok (hp_hex k) out F1 F2 F3 LO) as (text & W & X).
  exists text. split; [exact W|]. rewrite <- (hp_hex_spec test t v k H N T). split; [exact X|].
  unfold hp_from_str. rewrite (text_reads dsha dsha_len dsha_ok (hp_hex k) text X F1 F3) by lia. rewrite F2. change (78 =? 0) with false. cbv iota.
  destruct (hp_roundtrip test t v k k0 (zeros (85 - length (hp_hex k))) H N T S V S0 D0 U PV) as [_ ->]. reflexivity.
Qed.
End Text.
End Pub.

(** * Derivation *)
Section Derive.
Variable hmac512 : list Z -> list Z -> list Z.
Variable hash160 : list Z -> list Z.
Variable mulG : list Z -> list Z.
Variable padd : list Z -> list Z -> list Z.
Notation child := (hk_child_of hmac512 hash160 mulG).
Notation derive := (hk_derive hmac512 hash160 mulG).
Notation derive_path := (hk_derive_path hmac512 hash160 mulG).
Lemma child_hard : forall k v, 0 <= v < 2^31 -> child k (v + 2^31) false = child k v true.
Proof.
  intros k v H. unfold hk_child_of, HARDENED_INDEX. cbn [orb].
  destruct (Z.leb_spec 0x80000000 (v + 2^31)); [|lia]. destruct (Z.ltb_spec (v + 2^31) 0x80000000); [lia|].
  destruct (Z.ltb_spec v 0x80000000); [|lia]. cbn [andb]. reflexivity.
Qed.
Lemma child_number_step : forall k c, component_good c -> child k (child_number c) false = child k (component_value c) (component_hardened c).
Proof.
  intros k [ds m] ((Hd & Hm) & NE & V). unfold child_number. 
  assert (P : 0 <= component_value (ds, m)).
  { pose proof (PathFacts.be_acc_mono ds 0 Hd ltac:(lia)) as X. exact X. }
  destruct (component_hardened (ds, m)); [apply child_hard; lia|]. rewrite Z.add_0_r. reflexivity.
Qed.
Lemma derive_steps : forall cs k, Forall component_good cs ->
  derive k (map child_number cs) = fold_left (fun k c => child k (component_value c) (component_hardened c)) cs k.
Proof.
  induction cs as [|c cs IH]; intros k H; [reflexivity|]. unfold hk_derive in *. cbn [map fold_left].
  rewrite child_number_step by apply (Forall_inv H). apply IH. apply (Forall_inv_tail H).
Qed.
Lemma derive_path_good : forall pre cs post k, path_prefix pre -> path_suffix post -> cs <> [] -> Forall component_good cs ->
  len (pre ++ path_body cs ++ post) < 2^63 ->
  derive_path k (pre ++ path_body cs ++ post) = Ok (derive k (map child_number cs)) /\
  derive_path k (pre ++ path_body cs ++ post) =
    Ok (fold_left (fun k c => child k (component_value c) (component_hardened c)) cs k).
Proof.
  intros pre cs post k Hp Hs N G L. unfold hk_derive_path. rewrite PathFacts.prv_path_good by auto. cbn [bind].
  split; [reflexivity|]. rewrite derive_steps by auto. reflexivity.
Qed.
Lemma derive_app : forall k a b, derive k (a ++ b) = derive (derive k a) b.
Proof. intros k a b. unfold hk_derive. apply fold_left_app. Qed.
Lemma body_app : forall a b, a <> [] -> b <> [] -> path_body (a ++ b) = path_body a ++ 47 :: path_body b.
Proof.
  induction a as [|c a IH]; [congruence|intros b _ NB]. cbn [app]. rewrite PathFacts.body_cons.
  destruct a as [|c' a].
  - cbn [app]. rewrite PathFacts.body_cons. unfold PathFacts.body_rest. destruct b; [congruence|]. cbn [app]. rewrite app_nil_r. reflexivity.
  - rewrite (PathFacts.body_cons c). unfold PathFacts.body_rest. cbn [app]. change (c' :: a ++ b) with ((c' :: a) ++ b). rewrite IH by (auto; discriminate).
    rewrite <- app_assoc. reflexivity.
Qed.
Lemma derive_path_app : forall k a b, a <> [] -> b <> [] -> Forall component_good a -> Forall component_good b ->
  len (path_body a ++ chars "/" ++ path_body b) < 2^62 ->
  derive_path k (path_body a ++ chars "/" ++ path_body b) = let! k' := derive_path k (path_body a) in derive_path k' (path_body b).
Proof.
  intros k a b NA NB GA GB L. change (chars "/") with [47] in *. cbn [app] in *.
  assert (LA : len (path_body a) < 2^63) by (rewrite len_app in L; pose proof (len_nonneg _ (47 :: path_body b)); lia).
  assert (LB : len (path_body b) < 2^63) by (rewrite len_app, len_cons in L; pose proof (len_nonneg _ (path_body a)); lia).
  assert (P : forall cs k, cs <> [] -> Forall component_good cs -> len (path_body cs) < 2^63 -> derive_path k (path_body cs) = Ok (derive k (map child_number cs))).
  { intros cs h N G Lc. destruct (derive_path_good [] cs [] h) as [X _]; auto; [now left|now left|cbn [app]; rewrite app_nil_r; auto|].
    cbn [app] in X. rewrite app_nil_r in X. exact X. }
  rewrite (P a) by auto. cbn [bind]. rewrite (P b) by auto. rewrite <- body_app by auto. rewrite P.
  - rewrite map_app, derive_app. reflexivity.
  - destruct a; [congruence|discriminate].
  - apply Forall_app; auto.
  - rewrite body_app by auto. lia.
Qed.
(** Non-hardened children: private and public derivation agree. *)
Hypothesis padd_hom : forall a b, length a = 32%nat -> bytes_ok a -> length b = 32%nat -> bytes_ok b ->
  be_val 256 a < group_order -> be_val 256 b < group_order ->
  padd (mulG a) (mulG b) = mulG (be_bytes 32 ((be_val 256 a + be_val 256 b) mod group_order)).
Hypothesis hmac_len : forall k m, length (hmac512 k m) = 64%nat.
Hypothesis hmac_ok : forall k m, bytes_ok (hmac512 k m).
Lemma child_pub : forall k i, length (hk_num k) = 32%nat -> bytes_ok (hk_num k) -> be_val 256 (hk_num k) < group_order ->
  0 <= i < 2^31 -> to_pub mulG (child k i false) = hp_child_of hmac512 hash160 mulG padd (to_pub mulG k) i.
Proof.
  intros k i L B V H. unfold hk_child_of, to_pub, hp_child_of. cbn [orb]. unfold HARDENED_INDEX.
  destruct (Z.leb_spec 0x80000000 i); [lia|]. cbn [orb andb hk_num hk_chain hk_depth hk_fp hk_child hk_net hk_type hp_point hp_chain hp_depth hp_net hp_type].
  set (raw := hmac512 (hk_chain k) (sec_of (mulG (hk_num k)) ++ be32 i)).
  assert (LR : length (firstn 32 raw) = 32%nat) by (rewrite firstn_length_le; [reflexivity|unfold raw; rewrite hmac_len; lia]).
  assert (BR : bytes_ok (firstn 32 raw)) by (apply bytes_ok_firstn, hmac_ok).
  rewrite reduce_num_spec by auto.
  destruct (be_bytes_spec 32 (be_val 256 (firstn 32 raw) mod group_order)) as (W1 & W2 & W3).
  pose proof (Z.mod_pos_bound (be_val 256 (firstn 32 raw)) group_order ltac:(reflexivity)) as MB.
  assert (group_order < 256 ^ Z.of_nat 32) by reflexivity.
  rewrite padd_hom; auto; [|rewrite W3 by lia; lia].
  unfold scalar_add. rewrite be_write_spec, order_value. reflexivity.
Qed.
Lemma child_num_ok : forall k i h, length (hk_num (child k i h)) = 32%nat /\ bytes_ok (hk_num (child k i h)) /\ be_val 256 (hk_num (child k i h)) < group_order.
Proof.
  intros k i h. unfold hk_child_of. cbn [hk_num]. unfold scalar_add. rewrite be_write_spec, order_value.
  match goal with |- context [be_bytes 32 ?x] => destruct (be_bytes_spec 32 x) as (W1 & W2 & W3); set (y := x) in * end.
  assert (0 <= y < group_order) by (apply Z.mod_pos_bound; reflexivity).
  assert (group_order < 256 ^ Z.of_nat 32) by reflexivity. rewrite W3 by lia. split; [exact W1|]. split; [exact W2|]. lia.
Qed.
Lemma derive_pub : forall l k, length (hk_num k) = 32%nat -> bytes_ok (hk_num k) -> be_val 256 (hk_num k) < group_order ->
  Forall (fun i => 0 <= i < 2^31) l -> to_pub mulG (derive k l) = hp_derive hmac512 hash160 mulG padd (to_pub mulG k) l.
Proof.
  induction l as [|i l IH]; intros k L B V H; [reflexivity|]. unfold hk_derive, hp_derive in *. cbn [fold_left].
  rewrite IH; [|apply child_num_ok..|apply (Forall_inv_tail H)].
  rewrite child_pub; auto. apply (Forall_inv H).
Qed.
Lemma derive_path_pub : forall pre cs post k, length (hk_num k) = 32%nat -> bytes_ok (hk_num k) -> be_val 256 (hk_num k) < group_order ->
  path_prefix pre -> path_suffix post -> cs <> [] -> Forall component_good cs -> Forall (fun c => snd c = None) cs ->
  len (pre ++ path_body cs ++ post) < 2^63 ->
  exists k', derive_path k (pre ++ path_body cs ++ post) = Ok k' /\
    hp_derive_path hmac512 hash160 mulG padd (to_pub mulG k) (pre ++ path_body cs ++ post) = Ok (to_pub mulG k').
Proof.
  intros pre cs post k LK B V Hp Hs N G M L.
  destruct (derive_path_good pre cs post k Hp Hs N G L) as [-> _].
  eexists. split; [reflexivity|]. unfold hp_derive_path. rewrite PathFacts.pub_path_good by auto. cbn [bind].
  rewrite derive_pub; auto. clear -G M. induction cs as [|[ds m] cs IH]; [constructor|]. cbn [map]. constructor.
  - pose proof (Forall_inv G) as ((Hd & _) & _ & Vc). pose proof (Forall_inv M) as E. cbn [snd] in E. subst m.
    unfold child_number. cbn [component_hardened snd]. rewrite Z.add_0_r. split; [|exact Vc].
    apply (PathFacts.be_acc_mono ds 0 Hd). lia.
  - apply IH; [apply (Forall_inv_tail G)|apply (Forall_inv_tail M)].
Qed.
End Derive.

(** * BIP32 *)
Lemma sec_compressed : forall pt, sec_of pt = compressed pt.
Proof.
  intros pt. unfold sec_of, compressed. change 1 with (Z.ones 1). rewrite Z.land_ones by lia. change (2^1) with 2. rewrite Zmod_odd.
  destruct (Z.odd _); reflexivity.
Qed.
Section Bip32.
Variable hmac512 : list Z -> list Z -> list Z.
Variable hash160 : list Z -> list Z.
Variable mulG : list Z -> list Z.
Variable padd : list Z -> list Z -> list Z.
Hypothesis hmac_len : forall k m, length (hmac512 k m) = 64%nat.
Hypothesis hmac_ok : forall k m, bytes_ok (hmac512 k m).
Notation child := (hk_child_of hmac512 hash160 mulG).
Definition child_data (k : hdpriv) (i : Z) : list Z :=
  hmac512 (hk_chain k) ((if 2^31 <=? i then 0 :: hk_num k else compressed (mulG (hk_num k))) ++ be_bytes 4 i).
Lemma child_all : forall k i, 0 <= i < 2^32 ->
  hk_num (child k i false) = be_bytes 32 ((be_val 256 (firstn 32 (child_data k i)) + be_val 256 (hk_num k)) mod group_order) /\
  hk_chain (child k i false) = skipn 32 (child_data k i) /\
  hk_fp (child k i false) = firstn 4 (hash160 (compressed (mulG (hk_num k)))) /\
  hk_child (child k i false) = i /\ hk_depth (child k i false) = (hk_depth k + 1) mod 256 /\ hk_status (child k i false) = DONE.
Proof.
  intros k i H. unfold hk_child_of. cbn [orb hk_num hk_chain hk_fp hk_child hk_depth hk_status]. unfold HARDENED_INDEX.
  change 0x80000000 with (2^31).
  assert (E : (if (2^31 <=? i) && (i <? 2^31) then i + 2^31 else i) = i).
  { destruct (Z.leb_spec (2^31) i); destruct (Z.ltb_spec i (2^31)); cbn [andb]; try reflexivity; lia. }
  rewrite E, be32_spec, !sec_compressed. fold (child_data k i).
  split; [|repeat split; reflexivity].
  rewrite reduce_num_spec; [|apply bytes_ok_firstn, hmac_ok|rewrite firstn_length_le; [reflexivity|unfold child_data; rewrite hmac_len; lia]].
  unfold scalar_add. rewrite be_write_spec, order_value.
  match goal with |- context [be_val 256 (be_bytes 32 ?x)] => destruct (be_bytes_spec 32 x) as (_ & _ & W); rewrite W end.
  - f_equal. apply Zplus_mod_idemp_l.
  - pose proof (Z.mod_pos_bound (be_val 256 (firstn 32 (child_data k i))) group_order ltac:(reflexivity)).
    assert (group_order < 256 ^ Z.of_nat 32) by reflexivity. lia.
Qed.
Lemma child_bip32 : forall k i num chain, 0 <= i < 2^32 -> hk_depth k < 255 -> 0 <= hk_depth k ->
  ckd_priv hmac512 (hk_num k) (hk_chain k) (compressed (mulG (hk_num k))) i = Some (num, chain) ->
  hk_num (child k i false) = num /\ hk_chain (child k i false) = chain /\
  hk_fp (child k i false) = firstn 4 (hash160 (compressed (mulG (hk_num k)))) /\
  hk_child (child k i false) = i /\ hk_depth (child k i false) = hk_depth k + 1.
Proof.
  intros k i num chain H D1 D2 E. destruct (child_all k i H) as (A1 & A2 & A3 & A4 & A5 & _).
  unfold ckd_priv in E. fold (child_data k i) in E. cbv zeta in E.
  destruct ((_ <=? _) || _); [discriminate|]. injection E as <- <-.
  rewrite A1, A2, A3, A4, A5. rewrite (Z.mod_small (hk_depth k + 1)) by lia. repeat split; reflexivity.
Qed.
Lemma child_invalid : forall k i, 0 <= i < 2^32 ->
  ckd_priv hmac512 (hk_num k) (hk_chain k) (compressed (mulG (hk_num k))) i = None ->
  hk_status (child k i false) = DONE /\ length (hk_num (child k i false)) = 32%nat /\ hk_child (child k i false) = i.
Proof.
  intros k i H _. destruct (child_all k i H) as (A1 & A2 & A3 & A4 & A5 & A6). rewrite A1, A4, A6.
  split; [reflexivity|]. split; [apply be_bytes_spec|reflexivity].
Qed.
Lemma child_depth : forall k i, 0 <= i < 2^32 -> hk_depth k = 255 -> hk_depth (child k i false) = 0.
Proof. intros k i H D. destruct (child_all k i H) as (_ & _ & _ & _ & A & _). rewrite A, D. reflexivity. Qed.
Lemma pub_child_hardened : forall k i, hp_status (hp_child_of hmac512 hash160 mulG padd k i) = DONE /\
  hp_child (hp_child_of hmac512 hash160 mulG padd k i) = i.
Proof. intros. split; reflexivity. Qed.
Lemma master_bip32 : forall seed net num chain, bip32_master hmac512 seed = Some (num, chain) ->
  from_seed hmac512 seed net = mkHk num chain 0 (zeros 4) 0 net UNKNOWN_TYPE (zeros 4) DONE 0.
Proof.
  intros seed net num chain H. unfold bip32_master in H. cbv zeta in H. destruct ((_ <=? _) || _); [discriminate|].
  injection H as <- <-. reflexivity.
Qed.
Lemma master_invalid : forall seed net, bip32_master hmac512 seed = None ->
  hk_status (from_seed hmac512 seed net) = DONE /\ hk_num (from_seed hmac512 seed net) = firstn 32 (hmac512 (chars "Bitcoin seed") seed) /\
  (be_val 256 (hk_num (from_seed hmac512 seed net)) = 0 \/ group_order <= be_val 256 (hk_num (from_seed hmac512 seed net))).
Proof.
  intros seed net H. split; [reflexivity|]. split; [reflexivity|]. unfold bip32_master in H. cbv zeta in H. unfold from_seed. cbv zeta. cbn [hk_num].
  destruct (Z.leb_spec group_order (be_val 256 (firstn 32 (hmac512 (chars "Bitcoin seed") seed)))); [right; exact H0|]. cbn [orb] in H.
  destruct (Z.eqb_spec (be_val 256 (firstn 32 (hmac512 (chars "Bitcoin seed") seed))) 0); [left; assumption|discriminate].
Qed.
End Bip32.
(** Public keys lose their type and the regtest network like private ones; a failed key stays failed. *)
Lemma hp_failed_sticks : forall dsha unc val g k s l k', hp_status k = FAILED -> hp_from_str dsha unc val g k s = Ok (l, k') -> k' = k.
Proof.
  intros dsha unc val g k s l k' F H. unfold hp_from_str in H. destruct (fromBase58Check dsha s (zeros 85)) as [n arr].
  destruct (n =? 0); [congruence|]. unfold hp_parse in H. rewrite F in H. cbn [bind] in H. congruence.
Qed.
(** The character after a leading m is not looked at. *)
Lemma skip_second : forall c x t, len t < 2^62 -> prv_path (109 :: c :: x :: t) = prv_path (109 :: 47 :: x :: t).
Proof.
  intros c x t L.
  unfold prv_path, path_parse. cbn [app nth]. change (109 =? 109) with true. cbv zeta iota.
  change (Z.to_nat 2) with 2%nat. cbn [skipn]. rewrite !len_cons.
  pose proof (len_nonneg _ t).
  assert (E : u64 (2 + u64 (1 + (1 + (1 + len t)) - 2) - 1) = 2 + len t).
  { unfold u64. rewrite (Z.mod_small (1 + _ - 2)) by lia. rewrite Z.mod_small by lia. lia. }
  rewrite E.
  replace (aget (109 :: c :: x :: t ++ [0]) (2 + len t)) with (aget (109 :: 47 :: x :: t ++ [0]) (2 + len t)); [reflexivity|].
  unfold aget. rewrite !len_cons. destruct ((0 <=? _) && _); [|reflexivity]. f_equal.
  replace (Z.to_nat (2 + len t)) with (S (S (Z.to_nat (len t)))) by lia. reflexivity.
Qed.
(** A path with a character that is not known gives an empty key. *)
Section Refuse.
Variable hmac512 : list Z -> list Z -> list Z.
Variable hash160 : list Z -> list Z.
Variable mulG : list Z -> list Z.
Variable padd : list Z -> list Z -> list Z.
Lemma derive_refuse : forall k pre body c, pre = [] /\ hd 0 body <> 109 \/ pre = chars "m/" -> In c body ->
  ~ In c (chars "0123456789/'h" ++ [0]) -> len (pre ++ body) < 2^63 ->
  hk_derive_path hmac512 hash160 mulG k (pre ++ body) = Ok hk_new.
Proof.
  clear padd. intros k pre body c Hp Hc Hn L. unfold hk_derive_path, prv_path.
  rewrite (PathFacts.path_refuse valid_prv path_fill pre body c); auto. vm_compute. tauto.
Qed.
Lemma derive_refuse_pub : forall k pre body c, pre = [] /\ hd 0 body <> 109 \/ pre = chars "m/" -> In c body ->
  ~ In c (chars "0123456789/" ++ [0]) -> len (pre ++ body) < 2^63 ->
  hp_derive_path hmac512 hash160 mulG padd k (pre ++ body) = Ok hp_new.
Proof.
  intros k pre body c Hp Hc Hn L. unfold hp_derive_path, pub_path.
  rewrite (PathFacts.path_refuse valid_pub path_fill_pub pre body c); auto. vm_compute. tauto.
Qed.
Lemma derive_H : forall k pre body, pre = [] /\ hd 0 body <> 109 \/ pre = chars "m/" -> In 72 body -> len (pre ++ body) < 2^63 ->
  hk_derive_path hmac512 hash160 mulG k (pre ++ body) = Ok hk_new.
Proof.
  clear padd. intros k pre body Hp Hc L. apply (derive_refuse k pre body 72); auto.
  vm_compute. intros X. repeat (destruct X as [X|X]; [discriminate|]). exact X.
Qed.
Lemma derive_skip : forall k c x t, len t < 2^62 ->
  hk_derive_path hmac512 hash160 mulG k (109 :: c :: x :: t) = hk_derive_path hmac512 hash160 mulG k (109 :: 47 :: x :: t).
Proof. intros. unfold hk_derive_path. rewrite skip_second by auto. reflexivity. Qed.
Lemma derive_sound : forall k path k', c_string path -> len path < 2^63 -> hk_derive_path hmac512 hash160 mulG k path = Ok k' ->
  k' = hk_new \/ exists pre cs post, path = pre ++ path_body cs ++ post /\ (pre = [] \/ exists c, pre = [109; c]) /\ path_suffix post /\
    cs <> [] /\ Forall component_ok cs /\ k' = hk_derive hmac512 hash160 mulG k (map child_mod cs).
Proof.
  intros k path k' C L H. unfold hk_derive_path in H. destruct (prv_path path) as [[l|]|] eqn:E; [|left; cbn in H; congruence|discriminate].
  right. destruct (PathFacts.prv_path_sound path l C L E) as (pre & cs & post & E1 & E2 & E3 & E4 & E5 & ->).
  cbn [bind] in H. injection H as <-. eauto 12.
Qed.
Lemma derive_ub : forall k path, len path < 2^63 ->
  hk_derive_path hmac512 hash160 mulG k path = UB <-> path = [] \/ path = chars "m" \/ path = chars "m/".
Proof.
  intros k path L. rewrite <- PathFacts.prv_ub by auto. unfold hk_derive_path. destruct (prv_path path) as [[l|]|]; cbn [bind]; split; congruence.
Qed.
Lemma derive_ub_pub : forall k path, len path < 2^63 ->
  hp_derive_path hmac512 hash160 mulG padd k path = UB <-> path = [] \/ path = chars "m" \/ path = chars "m/".
Proof.
  intros k path L. rewrite <- PathFacts.pub_ub by auto. unfold hp_derive_path. destruct (pub_path path) as [[l|]|]; cbn [bind]; split; congruence.
Qed.
Lemma derive_ten : forall k ds, Forall (fun d => 0 <= d <= 9) ds -> length ds = 10%nat ->
  hk_derive_path hmac512 hash160 mulG k (map (fun d => 48 + d) ds) =
  Ok (hk_child_of hmac512 hash160 mulG k (be_val 10 ds mod 2^32) false).
Proof. intros k ds H L. unfold hk_derive_path. rewrite PathFacts.ten_digits by auto. reflexivity. Qed.
Lemma derive_digits_pub : forall k ds, Forall (fun d => 0 <= d <= 9) ds -> ds <> [] -> len ds < 2^63 ->
  hp_derive_path hmac512 hash160 mulG padd k (map (fun d => 48 + d) ds) =
  Ok (hp_child_of hmac512 hash160 mulG padd k (be_val 10 ds mod 2^32)).
Proof. intros k ds H N L. unfold hp_derive_path. rewrite PathFacts.pub_digits by auto. reflexivity. Qed.
Lemma hp_derive_app : forall k a b, hp_derive hmac512 hash160 mulG padd k (a ++ b) =
  hp_derive hmac512 hash160 mulG padd (hp_derive hmac512 hash160 mulG padd k a) b.
Proof. intros. apply fold_left_app. Qed.
(** Derivation changes the network of a regtest key. *)
Lemma regtest_child : forall k, hk_net k = Regtest -> hk_depth k = 1 -> hk_net (hk_child_of hmac512 hash160 mulG k 1 true) = Testnet.
Proof. intros k N D. unfold hk_child_of. cbn [hk_net]. rewrite D, N. reflexivity. Qed.
End Refuse.
