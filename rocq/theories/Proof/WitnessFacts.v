(** Witness: serialization and parsing of the wire form. *)
From Coq Require Import Lia.
From Verif Require Import Base.Bytes Base.BytesFacts Model.Conversion Model.Stream Model.Script
  Spec.Codecs Spec.Wire Proof.IntVarint Proof.StreamFacts Proof.StreamTrace Proof.ScriptFacts.
Open Scope Z_scope.

(** A length as the parsers read it: first byte, then the rest. *)
Lemma len_prefix : forall n rest, 0 <= n < 2^31 -> exists b t, compact_size n = b :: t /\ byte_ok b /\
  (if b <? 253 then b = n /\ t = [] else True) /\
  (if b <? 253 then 1 else varint_len b) = len (compact_size n) /\
  read_loop_o (if b <? 253 then 1 else varint_len b) 1 script_len_step (if b <? 253 then b else 0) (t ++ rest)
    = Ok (n, len (compact_size n), rest).
Proof.
  intros n rest H. destruct (varint_len_cs n ltac:(lia)) as (b & t & E & V & S1 & S2).
  exists b, t. split; [auto|].
  destruct (Z.lt_ge_cases n 253) as [HN|HN].
  - destruct (S1 HN) as [-> ->]. destruct (Z.ltb_spec n 253); [|lia].
    rewrite E. change (len [n]) with 1. unfold byte_ok. repeat split; auto; try lia.
    rewrite read_loop_o_stop by lia. reflexivity.
  - destruct (S2 HN) as (Rb & Bt & Vt). destruct (Z.ltb_spec b 253); [lia|]. unfold byte_ok. rewrite <- V.
    repeat split; auto; try lia.
    assert (T4 : len t <= 4).
    { rewrite E, len_cons in V. assert (b <> 255 -> varint_len b <= 5).
      { intros. assert (b = 253 \/ b = 254) as [-> | ->] by lia; cbn; lia. }
      assert (b <> 255); [|lia]. intros ->. unfold compact_size in E.
      destruct (Z.ltb_spec n 253); [lia|]. destruct (Z.ltb_spec n (2^16)); [discriminate|].
      destruct (Z.ltb_spec n (2^32)); [discriminate|]. lia. }
    pose proof (len_loop t rest 0 0 Bt) as LL. rewrite Vt in LL.
    assert (C : len (compact_size n) = 1 + len t) by (rewrite E, len_cons; auto).
    replace (1 + 0 + len t) with (1 + len t) in LL by lia. change (1 + 0) with 1 in LL. rewrite C. rewrite LL by lia.
    do 3 f_equal. lia.
Qed.

Lemma write_at_app : forall l a x b, length x = length l -> write_at (a ++ x ++ b) (len a) l = Ok (a ++ l ++ b).
Proof.
  induction l as [|c l IH]; intros a x b L; destruct x as [|y x]; cbn [length] in L; try lia; cbn [app write_at].
  - reflexivity.
  - rewrite aset_mid. cbn [bind].
    replace (a ++ c :: x ++ b) with ((a ++ [c]) ++ x ++ b) by (rewrite <- app_assoc; reflexivity).
    replace (len a + 1) with (len (a ++ [c])) by (rewrite len_app; reflexivity).
    rewrite IH by lia. rewrite <- app_assoc. reflexivity.
Qed.
Lemma varint_at_app : forall a x b n, 0 <= n < 2^64 -> length x = length (compact_size n) ->
  varint_at (a ++ x ++ b) (len a) n = Ok (a ++ compact_size n ++ b).
Proof.
  intros a x b n H L. unfold varint_at. rewrite lenVarInt_spec by auto.
  rewrite writeVarInt_spec by (auto; rewrite len_zeros; unfold len; lia). cbn [bind snd].
  rewrite skipn_all2 by (unfold zeros; rewrite repeat_length; unfold len; lia). rewrite app_nil_r.
  apply write_at_app; auto.
Qed.

Lemma element_wire : forall w e st, wi_len w = len (wi_arr w) -> wi_eparsed w = 0 ->
  0 <= wi_num w < 253 -> bytes_ok e -> len (wi_arr w) + len (wire_bytes e) < 2^31 ->
  witness_element w (1 + len (wi_arr w)) (wire_bytes e ++ st) =
    Ok (mkWitness (wi_arr w ++ wire_bytes e) (len (wi_arr w ++ wire_bytes e)) (wi_num w) (wi_cur w + 1) 0 0 0 (wi_lenLen w)
          INCOMPLETE (wi_parsed w), 1 + len (wi_arr w ++ wire_bytes e), st, false).
Proof.
  intros w e st WL EP NR BE SZ. rewrite len_app. rewrite len_wire_bytes in *.
  pose proof (len_nonneg _ e) as LE. pose proof (len_nonneg _ (wi_arr w)) as LA.
  pose proof (len_nonneg _ (compact_size (len e))) as LC.
  destruct (len_prefix (len e) (e ++ st) ltac:(lia)) as (b & t & E & Bb & Sb & V & R).
  unfold witness_element. rewrite EP.
  assert (O1 : lenVarInt (wi_num w) = 1) by (unfold lenVarInt; destruct (Z.ltb_spec (wi_num w) 253); [auto|lia]).
  rewrite O1. replace (1 + len (wi_arr w) - 1 - 0) with (len (wi_arr w)) by lia.
  rewrite (u64_id (len (wi_arr w))) by lia.
  assert (X : wire_bytes e ++ st = b :: (t ++ e) ++ st) by (unfold wire_bytes; rewrite E; reflexivity).
  rewrite X. clear X. change (0 =? 0) with true. cbv iota zeta.
  replace (if b <? 253 then (b, 1, 1, (t ++ e) ++ st) else (0, varint_len b, 1, (t ++ e) ++ st))
    with (if b <? 253 then b else 0, if b <? 253 then 1 else varint_len b, 1, (t ++ e) ++ st) by (destruct (b <? 253); reflexivity).
  rewrite <- app_assoc, R. cbn [bind]. rewrite V. clear R V Sb b t E Bb.
  rewrite Z.eqb_refl, lenVarInt_spec, Z.eqb_refl by lia. cbn [negb andb].
  set (cs := compact_size (len e)) in *.
  assert (C1 : 1 <= len cs) by (subst cs; pose proof (compact_size_len (len e) ltac:(lia)); lia).
  destruct (Z.ltb_spec 0 (len cs - 0)); [|lia]. cbn [andb].
  unfold alloc_ok. destruct (Z.ltb_spec (wi_len w + len e + len cs) (2^31)); [|lia]. cbn [negb].
  assert (AR : (if wi_len w =? 0 then varint_at (zeros (Z.to_nat (wi_len w + len e + len cs))) 0 (len e)
     else varint_at (wi_arr w ++ zeros (Z.to_nat (len e + len cs))) (len (wi_arr w)) (len e))
     = Ok ((wi_arr w ++ cs) ++ zeros (length e))).
  { assert (Z : zeros (Z.to_nat (len e + len cs)) = zeros (length cs) ++ zeros (length e)).
    { unfold zeros. rewrite <- repeat_app. f_equal. unfold len. lia. }
    rewrite <- app_assoc.
    destruct (Z.eqb_spec (wi_len w) 0) as [Z0|Z0].
    - assert (A0 : wi_arr w = []) by (destruct (wi_arr w); auto; rewrite len_cons in *; pose proof (len_nonneg _ l); lia).
      rewrite Z0, A0. cbn [Z.add app]. rewrite Z.
      apply (varint_at_app [] (zeros (length cs)) (zeros (length e)) (len e)); [lia|]. unfold zeros. rewrite repeat_length. auto.
    - rewrite Z. apply varint_at_app; [lia|]. unfold zeros. rewrite repeat_length. auto. }
  rewrite AR. cbn [bind]. clear AR.
  rewrite (u64_id (len e + len cs)) by lia.
  pose proof (fill_loop (- len (wi_arr w)) (len e + len cs) (fun a p c => aset a (len (wi_arr w) + p) c)) as FL.
  specialize (FL ltac:(intros; cbv beta; f_equal; lia) (e ++ st) (len cs) (wi_arr w ++ cs) (zeros (length e))).
  rewrite len_app, len_zeros in FL. specialize (FL ltac:(lia) ltac:(unfold len in *; lia)). cbv zeta in FL.
  rewrite FL. clear FL.
  replace (Nat.min (length (e ++ st)) (Z.to_nat (len e + len cs - len cs))) with (length e)
    by (rewrite app_length; unfold len; lia).
  rewrite firstn_app_len, skipn_app_len by auto.
  rewrite skipn_all2 by (unfold zeros; rewrite repeat_length; lia). rewrite app_nil_r. cbn [bind].
  change (Z.of_nat (length e)) with (len e). rewrite (Z.add_comm (len cs)), Z.eqb_refl.
  unfold wire_bytes. fold cs. rewrite WL, <- app_assoc. do 4 f_equal; try lia. f_equal. lia.
Qed.

Lemma elements_wire : forall els w st fuel, wi_len w = len (wi_arr w) -> wi_eparsed w = 0 ->
  wi_elen w = 0 -> wi_curLen w = 0 -> wi_status w = INCOMPLETE ->
  wi_num w = wi_cur w + len els -> 0 <= wi_cur w -> 0 <= wi_num w < 253 -> Forall bytes_ok els ->
  len (wi_arr w) + len (flat_map wire_bytes els) < 2^31 -> (length els <= fuel)%nat ->
  witness_elements fuel w (1 + len (wi_arr w)) (flat_map wire_bytes els ++ st) =
    Ok (mkWitness (wi_arr w ++ flat_map wire_bytes els) (len (wi_arr w ++ flat_map wire_bytes els)) (wi_num w) (wi_num w) 0 0 0 (wi_lenLen w)
          INCOMPLETE (wi_parsed w), 1 + len (wi_arr w ++ flat_map wire_bytes els), st, false).
Proof.
  induction els as [|e els IH]; intros w st fuel WL EP E0 C0 S0 NC CP NR BE SZ FU.
  - cbn [flat_map app]. rewrite app_nil_r. rewrite len_nil, Z.add_0_r in NC. 
    assert (W : mkWitness (wi_arr w) (len (wi_arr w)) (wi_num w) (wi_num w) 0 0 0 (wi_lenLen w) INCOMPLETE (wi_parsed w) = w).
    { destruct w. cbn in *. congruence. }
    rewrite W. destruct fuel, st; cbn [witness_elements]; auto; destruct (Z.ltb_spec (wi_cur w) (wi_num w)); auto; lia.
  - inversion BE as [|? ? B1 B2]; subst. cbn [flat_map] in *. rewrite len_app in SZ. rewrite len_cons in NC.
    pose proof (len_nonneg _ els). pose proof (len_nonneg _ (flat_map wire_bytes els)).
    destruct fuel as [|k]; cbn [length] in FU; [lia|].
    rewrite <- app_assoc.
    assert (NE : exists c t, wire_bytes e ++ flat_map wire_bytes els ++ st = c :: t).
    { unfold wire_bytes. pose proof (len_nonneg _ e). rewrite len_wire_bytes in SZ.
      pose proof (len_nonneg _ (wi_arr w)). pose proof (len_nonneg _ (compact_size (len e))).
      destruct (varint_len_cs (len e) ltac:(lia)) as (b & t & -> & _). cbn. eauto. }
    destruct NE as (c & t & NE). cbn [witness_elements]. rewrite NE.
    destruct (Z.ltb_spec (wi_cur w) (wi_num w)); [|lia]. rewrite <- NE.
    rewrite element_wire by (auto; lia). cbn [bind]. cbv iota.
    set (w1 := mkWitness _ _ _ _ _ _ _ _ _ _).
    specialize (IH w1 st k). cbn [w1 wi_arr wi_len wi_eparsed wi_elen wi_curLen wi_status wi_num wi_cur wi_lenLen wi_parsed] in IH.
    rewrite IH; auto; try lia; [|rewrite len_app; lia].
    rewrite <- !app_assoc. reflexivity.
Qed.

Definition parsed_witness (els : list (list Z)) : witness :=
  mkWitness (flat_map wire_bytes els) (len (flat_map wire_bytes els)) (len els) (len els) 0 0 0 1 DONE (len (wire_witness els)).

Lemma compact_one : forall n, 0 <= n < 253 -> compact_size n = [n].
Proof. intros n H. unfold compact_size. destruct (Z.ltb_spec n 253); [auto|lia]. Qed.

Lemma flat_wire_length : forall els, (length els <= length (flat_map wire_bytes els))%nat.
Proof.
  induction els as [|e els IH]; cbn [flat_map length]; [lia|]. rewrite app_length.
  assert (1 <= length (wire_bytes e))%nat; [|lia].
  unfold wire_bytes, compact_size. destruct (len e <? 253), (len e <? 2^16), (len e <? 2^32); cbn; lia.
Qed.

Lemma witness_parse_wire : forall w els rest, wi_status w = DONE -> wi_len w = len (wi_arr w) ->
  len els < 253 -> Forall bytes_ok els -> len (flat_map wire_bytes els) < 2^31 ->
  witness_parse w (wire_witness els ++ rest) = Ok (parsed_witness els, len (wire_witness els), rest).
Proof.
  intros w els rest D WL N B SZ. unfold witness_parse. rewrite D. pose proof (len_nonneg _ els) as N0.
  set (w0 := witness_clear _).
  assert (W0 : w0 = mkWitness [] 0 0 0 0 0 0 0 DONE 0).
  { unfold w0, witness_clear. cbn. destruct (Z.ltb_spec 0 (wi_len w)); auto. f_equal.
    destruct (wi_arr w); auto. rewrite len_cons in *. pose proof (len_nonneg _ l). lia. }
  rewrite W0. clear w0 W0.
  unfold wire_witness. rewrite compact_one by lia. cbn [app]. unfold witness_parse_body.
  cbn [wi_parsed wi_arr wi_len wi_num wi_cur wi_elen wi_eparsed wi_curLen wi_lenLen]. change (0 =? 0) with true. cbv iota.
  destruct (Z.ltb_spec (len els) 253); [|lia]. cbn [wi_parsed wi_arr wi_len wi_num wi_cur wi_elen wi_eparsed wi_curLen wi_lenLen].
  assert (L1 : lenVarInt (len els) = 1) by (unfold lenVarInt; destruct (Z.ltb_spec (len els) 253); [auto|lia]).
  rewrite L1. cbn [Z.eqb negb andb Pos.eqb].
  set (w1 := mkWitness _ _ _ _ _ _ _ _ _ _).
  pose proof (elements_wire els w1 rest (S (length (flat_map wire_bytes els ++ rest)))) as EW.
  cbn [w1 wi_arr wi_len wi_eparsed wi_elen wi_curLen wi_status wi_num wi_cur wi_lenLen wi_parsed app] in EW.
  rewrite len_nil in EW. change (1 + 0) with 1 in EW. rewrite EW; auto; try lia.
  2:{ rewrite app_length. pose proof (flat_wire_length els). lia. }
  cbn [bind wi_arr wi_len wi_eparsed wi_elen wi_curLen wi_status wi_num wi_cur wi_lenLen wi_parsed].
  rewrite Z.eqb_refl, Z.sub_0_r. unfold parsed_witness, wire_witness. rewrite compact_one by lia. cbn [app].
  rewrite len_cons. reflexivity.
Qed.

Definition witness_wf (w : witness) : Prop := wi_len w = len (wi_arr w) /\ 0 <= wi_num w < 2^64 /\ len (wi_arr w) < 2^31.
Lemma witness_serializes : forall w, witness_wf w -> serializes (witness_to_stream w) (compact_size (wi_num w) ++ wi_arr w).
Proof.
  intros w (E & N & L). pose proof (prefix_serializes (wi_num w) (wi_arr w) N) as P.
  unfold witness_to_stream. rewrite E. exact P.
Qed.
