(** Script: what a successful parse says about the bytes. *)
From Coq Require Import Lia.
From Verif Require Import Base.Bytes Base.BytesFacts Model.Conversion Model.Stream Model.Script
  Spec.Codecs Spec.Wire Proof.IntVarint Proof.StreamFacts Proof.Chunks Proof.ScriptFacts Proof.ScriptChunks.
Open Scope Z_scope.

Lemma shl_big : forall acc c, 0 <= acc < 2^24 -> 128 <= c < 256 ->
  exists v, script_len_step acc 4 c = Ok v /\ 2^31 <= v < 2^64.
Proof.
  intros acc c HA HC. unfold script_len_step, shl_int. change (8 * (4 - 1)) with 24. cbn [Z.leb Z.ltb Z.compare andb].
  rewrite Z.shiftl_mul_pow2 by lia. unfold i32. rewrite (Z.mod_small (c * 2^24)) by lia.
  destruct (Z.ltb_spec (c * 2^24) (2^31)); [lia|]. cbn [bind]. eexists. split; [reflexivity|].
  unfold u64. rewrite <- (Z.mod_add _ 1) by lia. rewrite Z.mod_small by lia. lia.
Qed.
Lemma shl_step_lt : forall acc j c, 0 <= j < 4 -> byte_ok c -> c * 2^(8*j) < 2^31 -> 0 <= acc < 2^32 ->
  script_len_step acc (1 + j) c = Ok (acc + c * 2^(8*j)).
Proof. intros. unfold byte_ok in *. apply shl_len_step; lia. Qed.
Lemma step_at : forall p m acc c, 1 <= p <= 4 -> m = 2^(8*(p-1)) -> byte_ok c -> c * m < 2^31 -> 0 <= acc < 2^32 ->
  script_len_step acc p c = Ok (acc + c * m).
Proof. intros p m acc c HP -> B H HA. replace p with (1 + (p - 1)) at 1 by lia. apply shl_step_lt; auto. lia. Qed.

(** The rest of a three- or five-byte length. *)
Lemma len_rest : forall lenLen t l2 p2 r, lenLen = 3 \/ lenLen = 5 -> bytes_ok t ->
  read_loop_o lenLen 1 script_len_step 0 t = Ok (l2, p2, r) -> lenLen <= p2 ->
  exists lb, t = lb ++ r /\ len lb = lenLen - 1 /\ p2 = lenLen /\ (l2 = le_val 256 lb \/ 2^31 <= l2 < 2^64).
Proof.
  intros lenLen t l2 p2 r HL B E HP.
  pose proof (read_loop_o_pos _ _ _ _ _ _ _ _ E) as (Q1 & Q2 & Q3 & Q4 & Q5).
  assert (p2 = lenLen) as -> by lia.
  set (lb := firstn (Z.to_nat (lenLen - 1)) t) in *. exists lb. split; [exact Q5|].
  assert (LB : len lb = lenLen - 1).
  { apply (f_equal len) in Q5. rewrite len_app in Q5. lia. }
  split; [auto|]. split; [auto|].
  rewrite Q5 in E, B. apply bytes_ok_app in B as [B _]. clearbody lb. clear Q5 Q1 Q2 Q3 Q4 HP t.
  destruct HL as [-> | ->].
  - destruct lb as [|a [|b [|c lb]]]; try (rewrite ?len_cons, ?len_nil in LB; lia).
    2:{ rewrite !len_cons in LB. pose proof (len_nonneg _ lb). lia. }
    inversion B as [|? ? Ba B']; subst. inversion B' as [|? ? Bb B'']; subst. unfold byte_ok in *.
    cbn [app read_loop_o] in E. change (1 <? 3) with true in E. cbv iota in E.
    rewrite (step_at 1 1) in E by (unfold byte_ok; lia). cbn [bind] in E.
    change (1 + 1) with 2 in E. change (2 <? 3) with true in E. cbv iota in E.
    rewrite (step_at 2 256) in E by (unfold byte_ok; lia). cbn [bind] in E.
    rewrite read_loop_o_stop in E by lia. injection E as <-. left. cbn [le_val]. lia.
  - destruct lb as [|a [|b [|c [|d [|e lb]]]]]; try (rewrite ?len_cons, ?len_nil in LB; lia).
    2:{ rewrite !len_cons in LB. pose proof (len_nonneg _ lb). lia. }
    inversion B as [|? ? Ba B']; subst. inversion B' as [|? ? Bb B'']; subst. inversion B'' as [|? ? Bc B3]; subst.
    inversion B3 as [|? ? Bd _]; subst. unfold byte_ok in *. clear B B' B'' B3.
    cbn [app read_loop_o] in E. change (1 <? 5) with true in E. cbv iota in E.
    rewrite (step_at 1 1) in E by (unfold byte_ok; lia). cbn [bind] in E.
    change (1 + 1) with 2 in E. change (2 <? 5) with true in E. cbv iota in E.
    rewrite (step_at 2 256) in E by (unfold byte_ok; lia). cbn [bind] in E.
    change (2 + 1) with 3 in E. change (3 <? 5) with true in E. cbv iota in E.
    rewrite (step_at 3 65536) in E by (unfold byte_ok; lia). cbn [bind] in E.
    change (3 + 1) with 4 in E. change (4 <? 5) with true in E. cbv iota in E.
    destruct (Z.lt_ge_cases d 128) as [HD|HD].
    + rewrite (step_at 4 16777216) in E by (unfold byte_ok; lia). cbn [bind] in E.
      rewrite read_loop_o_stop in E by lia. injection E as <-. left. cbn [le_val]. lia.
    + match type of E with (let! _ := script_len_step ?a 4 d in _) = _ =>
        destruct (shl_big a d ltac:(lia) ltac:(lia)) as (v & V1 & V2); rewrite V1 in E end.
      cbn [bind] in E. rewrite read_loop_o_stop in E by lia. injection E as <-. right. lia.
Qed.

Lemma compact_of_rest : forall b lb, 253 <= b <= 254 -> bytes_ok lb -> len lb = varint_len b - 1 ->
  lenVarInt (le_val 256 lb) = varint_len b -> b :: lb = compact_size (le_val 256 lb).
Proof.
  intros b lb HB B L V.
  assert (LV : 0 <= le_val 256 lb < 2^64).
  { apply le_val_bound; auto. assert (b = 253 \/ b = 254) as [-> | ->] by lia; unfold len in L; cbn in L; lia. }
  rewrite lenVarInt_spec in V by auto.
  destruct (varint_len_cs _ LV) as (b' & t' & E & V' & S1 & S2).
  rewrite E. assert (b' = b /\ length t' = length lb).
  { rewrite E in V. rewrite E in V'. rewrite V' in V.
    assert (b' = b).
    { destruct (Z.lt_ge_cases (le_val 256 lb) 253) as [H|H].
      - destruct (S1 H) as [-> ->]. cbn in V'. assert (b = 253 \/ b = 254) as [-> | ->] by lia; exfalso; revert V; unfold varint_len at 1; destruct (Z.ltb_spec (le_val 256 lb) 253); cbn; lia.
      - destruct (S2 H) as (R & _). assert (b = 253 \/ b = 254) as [-> | ->] by lia;
          assert (b' = 253 \/ b' = 254 \/ b' = 255) as [-> | [-> | ->]] by lia; cbn in V; lia. }
    split; auto. rewrite len_cons in V'. subst b'. unfold len in *. lia. }
  destruct H as [-> HL]. destruct (Z.lt_ge_cases (le_val 256 lb) 253) as [H|H].
  { destruct (S1 H) as [-> ->]. exfalso. lia. }
  destruct (S2 H) as (_ & BT & VT). f_equal. rewrite <- (le_bytes_val lb B), <- (le_bytes_val t' BT). rewrite HL, VT. reflexivity.
Qed.

Lemma body2_sound : forall p0 arr l lenLen a s1 n1 r1, 0 <= l < 2^31 -> 0 <= lenLen <= 9 -> lenVarInt l = lenLen ->
  bytes_ok a -> body2 p0 arr l lenLen lenLen a = Ok (s1, n1, r1) -> sc_status s1 = DONE ->
  exists bs, a = bs ++ r1 /\ len bs = l /\ s1 = mkScript (if 0 <? l then bs else arr) l lenLen DONE (lenLen + l) /\ n1 = lenLen + l - p0.
Proof.
  intros p0 arr l lenLen a s1 n1 r1 HL HLL V B E D. unfold body2 in E. rewrite read_loop_o_stop in E by lia. cbn [bind] in E.
  rewrite Z.eqb_refl, V, Z.eqb_refl in E. cbn [negb andb] in E. unfold alloc_ok in E.
  destruct (Z.ltb_spec l (2^31)); [|lia]. cbn [negb] in E. rewrite andb_false_r in E. cbv zeta in E.
  rewrite (u64_id (l + lenLen)) in E by lia.
  destruct (Z.ltb_spec 0 l) as [HP|HP].
  - pose proof (fill_loop lenLen (l + lenLen) (script_byte_step lenLen) (fun _ _ _ => eq_refl) a lenLen [] (zeros (Z.to_nat l))) as F.
    cbn [app] in F. rewrite F in E; [|rewrite len_nil; lia|rewrite len_zeros, len_nil; lia]. cbn [bind] in E.
    replace (l + lenLen - lenLen) with l in E by lia.
    set (k := Nat.min (length a) (Z.to_nat l)) in *. injection E as <- <- <-. cbn [sc_status] in D.
    destruct (Z.eqb_spec (lenLen + Z.of_nat k) (l + lenLen)); [|discriminate].
    assert (K : Z.of_nat k = l) by lia.
    exists (firstn k a). split; [symmetry; apply firstn_skipn|]. split; [unfold len; rewrite firstn_length; lia|].
    split; [|lia]. f_equal; [|lia]. rewrite skipn_all2; [apply app_nil_r|]. unfold zeros. rewrite repeat_length. lia.
  - assert (l = 0) as -> by lia. rewrite read_loop_o_stop in E by lia. cbn [bind Z.add] in E. rewrite Z.eqb_refl in E.
    injection E as <- <- <-. exists []. repeat split; auto; try lia. f_equal. lia.
Qed.

Lemma script_sound : forall s a s1 n r, sc_status s = DONE -> sc_len s = len (sc_arr s) -> bytes_ok a -> a <> [] ->
  script_parse s a = Ok (s1, n, r) -> sc_status s1 = DONE -> hd 0 a <> 255 ->
  exists bs, a = wire_bytes bs ++ r /\ s1 = parsed_script bs /\ n = len (wire_bytes bs) /\ bytes_ok bs /\ len bs < 2^31.
Proof.
  intros s a s1 n r HS HW B NE E D H255. unfold script_parse in E. rewrite HS in E.
  set (s0 := script_clear _) in E.
  assert (A0 : sc_arr s0 = [] /\ sc_parsed s0 = 0).
  { unfold s0, script_clear. cbn [sc_len]. rewrite HW. destruct (Z.ltb_spec 0 (len (sc_arr s))); cbn [sc_arr sc_parsed]; auto.
    split; auto. destruct (sc_arr s); auto. rewrite len_cons in *. pose proof (len_nonneg _ l). lia. }
  clearbody s0. destruct A0 as [A0 P0].
  destruct a as [|b t]; [congruence|]. cbn [hd] in H255.
  rewrite body_first in E by auto. inversion B as [|? ? Bb Bt]; subst. unfold byte_ok in Bb.
  destruct (Z.ltb_spec b 253) as [HB|HB].
  - assert (V : lenVarInt b = 1) by (unfold lenVarInt; destruct (Z.ltb_spec b 253); [auto|lia]).
    destruct (body2_sound 0 _ b 1 t s1 n r ltac:(lia) ltac:(lia) V Bt E D) as (bs & -> & L & -> & ->).
    apply bytes_ok_app in Bt as [Bt _].
    assert (C : compact_size b = [b]) by (unfold compact_size; destruct (Z.ltb_spec b 253); [auto|lia]).
    exists bs. unfold parsed_script, wire_bytes. rewrite L, C. repeat split; auto; try lia.
    + f_equal; [|rewrite len_app; change (len [b]) with 1; lia]. destruct (Z.ltb_spec 0 b); auto.
      rewrite A0. destruct bs; auto. rewrite len_cons in L. pose proof (len_nonneg _ bs). lia.
    + rewrite len_app. change (len [b]) with 1. lia.
  - assert (HLL : varint_len b = 3 \/ varint_len b = 5).
    { assert (b = 253 \/ b = 254) as [-> | ->] by lia; cbn; auto. }
    unfold body2 in E.
    destruct (read_loop_o (varint_len b) 1 script_len_step 0 t) as [[[l2 p2] st2]|] eqn:R1; cbn [bind] in E; [|discriminate].
    pose proof (read_loop_o_pos _ _ _ _ _ _ _ _ R1) as (Q1 & Q2 & Q3 & Q4 & _).
    destruct (Z.ltb_spec p2 (varint_len b)) as [Hlt|Hge].
    { exfalso. destruct Q4 as [->|]; [|lia].
      pose proof (len_loop_inv _ _ _ _ _ _ _ Bt R1 ltac:(lia) ltac:(lia) ltac:(cbn; lia)) as (J1 & J2).
      destruct (Z.eqb_spec p2 (varint_len b)); [lia|]. cbn [andb] in E. cbv zeta in E. cbn [read_loop_o bind] in E.
      injection E as <- <- <-. cbn [sc_status] in D.
      destruct (Z.eqb_spec p2 (u64 (l2 + varint_len b))) as [EE|]; [|discriminate].
      pose proof (mid_length_not_done l2 (varint_len b) p2 ltac:(lia) ltac:(lia) Hlt J1 ltac:(auto) EE). lia. }
    destruct (len_rest (varint_len b) t l2 p2 st2 HLL Bt R1 Hge) as (lb & -> & LB & -> & VL).
    rewrite Z.eqb_refl in E. cbn [andb] in E.
    apply bytes_ok_app in Bt as [Bl Bst].
    assert (V64 : 0 <= l2 < 2^64).
    { destruct VL as [->|]; [|lia]. apply le_val_bound; auto. unfold len in LB. lia. }
    unfold alloc_ok in E. destruct (Z.ltb_spec l2 (2^31)) as [H31|H31].
    2:{ exfalso. destruct (Z.ltb_spec 0 l2); [|lia]. cbn in E. injection E as <- <- <-. discriminate. }
    destruct VL as [VL|]; [|lia].
    destruct (Z.eqb_spec (lenVarInt l2) (varint_len b)) as [LV|].
    2:{ exfalso. cbn [negb] in E. rewrite andb_false_r in E. injection E as <- <- <-. discriminate. }
    assert (E' : body2 0 (zeros 255) l2 (varint_len b) (varint_len b) st2 = Ok (s1, n, r)).
    { unfold body2. rewrite read_loop_o_stop by lia. cbn [bind]. rewrite Z.eqb_refl. cbn [andb]. unfold alloc_ok.
      destruct (Z.ltb_spec l2 (2^31)); [|lia]. rewrite LV, Z.eqb_refl. exact E. }
    destruct (body2_sound 0 (zeros 255) l2 (varint_len b) st2 s1 n r ltac:(lia) ltac:(lia) LV Bst E' D) as (bs & -> & L & -> & ->).
    pose proof (compact_of_rest b lb ltac:(lia) Bl LB ltac:(rewrite <- VL; exact LV)) as C. rewrite <- VL in C.
    apply bytes_ok_app in Bst as [Bbs _].
    assert (253 <= l2).
    { destruct (Z.lt_ge_cases l2 253); auto. exfalso. unfold lenVarInt in LV. destruct (Z.ltb_spec l2 253); lia. }
    assert (CL : len (compact_size l2) = varint_len b) by (rewrite <- C, len_cons; lia).
    exists bs. unfold parsed_script, wire_bytes. rewrite L, CL. destruct (Z.ltb_spec 0 l2); [|lia].
    rewrite len_app, CL, L. repeat split; auto; try lia.
    rewrite <- C. cbn [app]. rewrite <- app_assoc. reflexivity.
Qed.

(** A length prefix of 0xff is accepted, cut short, with a length that is
    2^64 - 4; serialize() and the destructor then use it. *)
Lemma script_ff_accepts : exists s n,
  script_parse script_new [255; 252; 255; 255; 255] = Ok (s, n, []) /\ sc_status s = DONE /\
  sc_len s = 2^64 - 4 /\ (forall bs, [255; 252; 255; 255; 255] <> wire_bytes bs) /\
  script_to_stream s None 0 = UB.
Proof.
  do 2 eexists. split; [vm_compute; reflexivity|]. cbn [sc_status sc_len]. split; [auto|]. split; [reflexivity|]. split.
  - intros bs H. assert (L := f_equal len H). rewrite len_wire_bytes in L. pose proof (len_nonneg _ bs).
    assert (HB : len bs <= 5) by (pose proof (len_nonneg _ (compact_size (len bs))); change (len [255; 252; 255; 255; 255]) with 5 in L; lia).
    unfold wire_bytes, compact_size in H. destruct (Z.ltb_spec (len bs) 253); [|lia]. injection H as H _. lia.
  - vm_compute. reflexivity.
Qed.
