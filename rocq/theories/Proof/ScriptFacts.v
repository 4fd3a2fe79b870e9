(** Script: serialization, parsing, incremental parsing. *)
From Coq Require Import Lia.
From Verif Require Import Base.Bytes Base.BytesFacts Model.Conversion Model.Stream Model.Script
  Spec.Codecs Spec.Wire Proof.IntVarint Proof.StreamFacts Proof.Chunks.
Open Scope Z_scope.

Lemma compact_size_len : forall n, 0 <= n < 2^64 ->
  1 <= len (compact_size n) <= 9 /\ (n < 253 -> len (compact_size n) = 1).
Proof.
  intros n H. unfold compact_size.
  destruct (Z.ltb_spec n 253); [cbn; lia|].
  destruct (Z.ltb_spec n (2^16)); [rewrite len_cons, len_le_bytes; lia|].
  destruct (Z.ltb_spec n (2^32)); rewrite len_cons, len_le_bytes; lia.
Qed.
Lemma len_wire_bytes : forall bs, len (wire_bytes bs) = len (compact_size (len bs)) + len bs.
Proof. intros. unfold wire_bytes. apply len_app. Qed.

Lemma varint_arr_ok : forall n, 0 <= n < 2^64 ->
  varint_arr n = Ok (compact_size n ++ zeros (10 - length (compact_size n))).
Proof.
  intros n H. pose proof (compact_size_len n H) as [L _]. unfold varint_arr.
  rewrite writeVarInt_spec by (auto; rewrite len_zeros; lia). cbn [bind snd]. do 2 f_equal.
  unfold zeros, len in *. assert (length (compact_size n) <= 10)%nat as K by lia.
  generalize dependent (length (compact_size n)). intros k _ K.
  do 11 (destruct k as [|k]; [reflexivity|]). lia.
Qed.

(** ** Serialization *)
Definition script_wf (s : script) : Prop :=
  sc_len s = len (sc_arr s) /\ bytes_ok (sc_arr s) /\ len (sc_arr s) < 2^31.

Lemma script_length_wire : forall s, script_wf s -> script_length s = len (wire_bytes (sc_arr s)).
Proof.
  intros s (E & B & L). unfold script_length. pose proof (len_nonneg _ (sc_arr s)).
  pose proof (compact_size_len (len (sc_arr s)) ltac:(lia)).
  rewrite len_wire_bytes, E, lenVarInt_spec, u64_id by lia. lia.
Qed.

(** A length prefix and an array, as both Script and Witness write them. *)
Lemma prefix_serializes : forall n arr, 0 <= n < 2^64 ->
  serializes (fun cap offset =>
    let l := u8 (lenVarInt n) in
    let! a := varint_arr n in
    let! w1 := write_loop 10 0 l a (mkWst offset cap []) in
    let! w2 := write_loop (length arr) l (len arr) arr w1 in
    Ok (w_out w2)) (compact_size n ++ arr).
Proof.
  intros n arr HN. pose proof (compact_size_len n HN) as [L _].
  eapply (writes_serializes _ (fun w => let! w1 := write_loop 10 0 (len (compact_size n)) (compact_size n ++ zeros (10 - length (compact_size n))) w in
      write_loop (length arr) (len (compact_size n)) (len arr) arr w1)).
  - apply writes_seq.
    + replace (compact_size n) with
        (firstn (Z.to_nat (len (compact_size n))) (compact_size n ++ zeros (10 - length (compact_size n)))) at 1.
      * apply writes_loop; [|lia]. rewrite len_app. pose proof (len_nonneg _ (zeros (10 - length (compact_size n)))). lia.
      * apply firstn_app_len. unfold len. lia.
    + apply writes_loop_all; auto.
  - intros cap off. cbv zeta. rewrite varint_arr_ok by auto. cbn [bind].
    rewrite lenVarInt_spec by auto. rewrite u8_id by lia.
    destruct (write_loop 10 _ _ _ _); cbn [bind]; auto.
Qed.
Lemma script_serializes : forall s, script_wf s -> serializes (script_to_stream s) (wire_bytes (sc_arr s)).
Proof.
  intros s (E & B & L). pose proof (len_nonneg _ (sc_arr s)).
  pose proof (prefix_serializes (len (sc_arr s)) (sc_arr s) ltac:(lia)) as P.
  unfold script_to_stream. rewrite E. exact P.
Qed.

(** ** Reading numbers *)
Lemma i32_mod : forall x, (i32 x) mod 2^32 = x mod 2^32.
Proof.
  intros. unfold i32. destruct (x mod 2^32 <? 2^31).
  - apply Z.mod_mod; lia.
  - rewrite <- (Z.mod_add _ 1) by lia. rewrite Z.mul_1_l, Z.sub_add. apply Z.mod_mod; lia.
Qed.
Lemma i32_id : forall x, 0 <= x < 2^31 -> i32 x = x.
Proof. intros. unfold i32. rewrite Z.mod_small by lia. destruct (Z.ltb_spec x (2^31)); lia. Qed.

Lemma shl_len_step : forall acc j c, 0 <= j < 4 -> 0 <= c -> c * 2^(8*j) < 2^31 -> 0 <= acc -> acc + c * 2^(8*j) < 2^64 ->
  script_len_step acc (1 + j) c = Ok (acc + c * 2^(8*j)).
Proof.
  intros acc j c HJ HC HB HA HS. unfold script_len_step, shl_int. replace (1 + j - 1) with j by lia.
  replace ((0 <=? 8 * j) && (8 * j <? 32)) with true by (symmetry; apply andb_true_intro; lia).
  rewrite Z.shiftl_mul_pow2 by lia. cbn [bind].
  assert (0 <= c * 2^(8*j)) by (apply Z.mul_nonneg_nonneg; [lia|apply Z.pow_nonneg; lia]).
  rewrite i32_id by lia. rewrite u64_id by lia. auto.
Qed.
Lemma len_loop : forall bs rest j acc, bytes_ok bs -> 0 <= j -> j + len bs <= 4 -> 0 <= acc ->
  acc + 2^(8*j) * le_val 256 bs < 2^31 ->
  read_loop_o (1 + j + len bs) (1 + j) script_len_step acc (bs ++ rest)
    = Ok (acc + 2^(8*j) * le_val 256 bs, 1 + j + len bs, rest).
Proof.
  induction bs as [|c t IH]; intros rest j acc B HJ HL HA HB.
  - cbn [app le_val]. rewrite len_nil. rewrite read_loop_o_stop by lia. rewrite Z.mul_0_r, !Z.add_0_r. reflexivity.
  - inversion B as [|? ? Bc Bt]; subst. unfold byte_ok in Bc. pose proof (len_nonneg _ t) as LT.
    rewrite len_cons in *. cbn [app read_loop_o le_val] in *.
    destruct (Z.ltb_spec (1 + j) (1 + j + (1 + len t))); [|lia].
    assert (V : 0 <= le_val 256 t).
    { rewrite le_val_be_val. apply (be_val_bound 256); [lia|]. apply bytes_digits, bytes_ok_rev; auto. }
    assert (P : 0 < 2^(8*j)) by (apply Z.pow_pos_nonneg; lia).
    assert (0 <= c * 2^(8*j)) by nia.
    assert (0 <= 2^(8*j) * le_val 256 t) by nia.
    rewrite shl_len_step by lia. cbn [bind].
    assert (E : 2^(8*(j+1)) = 256 * 2^(8*j)).
    { replace (8*(j+1)) with (8 + 8*j) by lia. rewrite Z.pow_add_r by lia. reflexivity. }
    replace (1 + j + (1 + len t)) with (1 + (j + 1) + len t) by lia.
    replace (1 + j + 1) with (1 + (j + 1)) by lia.
    rewrite IH by (auto; try lia; rewrite E; lia).
    rewrite E. do 3 f_equal. lia.
Qed.


(** ** Parsing a serialized script *)
Definition parsed_script (bs : list Z) : script :=
  mkScript bs (len bs) (len (compact_size (len bs))) DONE (len (wire_bytes bs)).

(** What from_stream does once the first byte is read. *)
Definition body2 (p0 : Z) (arr1 : list Z) (len1 lenLen1 pos1 : Z) (st1 : list Z) : outcome (script * Z * list Z) :=
  let! r := read_loop_o lenLen1 pos1 script_len_step len1 st1 in
  let '(len2, pos2, st2) := r in
  let at_len := pos2 =? lenLen1 in
  if at_len && (0 <? len2) && negb (alloc_ok len2) then
    Ok (mkScript [] 0 lenLen1 FAILED p0, 0, st2)
  else
  let arr2 := if at_len && (0 <? len2) then zeros (Z.to_nat len2) else arr1 in
  if at_len && negb (lenVarInt len2 =? lenLen1) then
    Ok (mkScript arr2 len2 lenLen1 FAILED pos2, pos2 - p0, st2)
  else
  let limit := u64 (len2 + lenLen1) in
  let! r3 := read_loop_o limit pos2 (script_byte_step lenLen1) arr2 st2 in
  let '(arr3, pos3, st3) := r3 in
  Ok (mkScript arr3 len2 lenLen1 (if pos3 =? limit then DONE else INCOMPLETE) pos3,
      pos3 - p0, st3).

Lemma body_first : forall s b t, sc_parsed s = 0 ->
  script_parse_body s (b :: t) =
    if b <? 253 then body2 0 (if 0 <? b then zeros (Z.to_nat b) else sc_arr s) b 1 1 t
    else body2 0 (zeros 255) 0 (varint_len b) 1 t.
Proof.
  intros s b t H. unfold script_parse_body, body2. rewrite H. change (0 =? 0) with true. cbv iota.
  destruct (b <? 253); reflexivity.
Qed.
Lemma body_more : forall s st, sc_parsed s <> 0 ->
  script_parse_body s st = body2 (sc_parsed s) (sc_arr s) (sc_len s) (sc_lenLen s) (sc_parsed s) st.
Proof.
  intros s st H. unfold script_parse_body, body2. destruct (Z.eqb_spec (sc_parsed s) 0); [congruence|].
  destruct st; reflexivity.
Qed.
Lemma body_empty : forall s, script_parse_body s [] = body2 (sc_parsed s) (sc_arr s) (sc_len s) (sc_lenLen s) (sc_parsed s) [].
Proof. reflexivity. Qed.

Lemma varint_len_cs : forall n, 0 <= n < 2^64 -> exists b t, compact_size n = b :: t /\ len (compact_size n) = varint_len b
  /\ (n < 253 -> b = n /\ t = []) /\ (253 <= n -> 253 <= b <= 255 /\ bytes_ok t /\ le_val 256 t = n).
Proof.
  intros n H. unfold compact_size.
  destruct (Z.ltb_spec n 253).
  { exists n, []. repeat split; auto; try lia. unfold varint_len. destruct (Z.ltb_spec n 253); [reflexivity|lia]. }
  destruct (Z.ltb_spec n (2^16)); [|destruct (Z.ltb_spec n (2^32))]; do 2 eexists;
    (split; [reflexivity|]); (split; [rewrite len_cons, len_le_bytes; reflexivity|]); (split; [lia|]);
    intros _; (split; [lia|]); (split; [apply le_bytes_ok|]); rewrite le_val_le_bytes; apply Z.mod_small.
  - change (256 ^ Z.of_nat 2) with (2^16). lia.
  - change (256 ^ Z.of_nat 4) with (2^32). lia.
  - change (256 ^ Z.of_nat 8) with (2^64). lia.
Qed.

Lemma body2_read : forall p0 arr n bs rest pos, 0 <= n < 2^31 -> n = len bs -> pos = len (compact_size n) ->
  body2 p0 arr n pos pos (bs ++ rest) =
    Ok (mkScript (if 0 <? n then bs else arr) n pos DONE (pos + n), pos + n - p0, rest).
Proof.
  intros p0 arr n bs rest pos HN HB HP. unfold body2. rewrite read_loop_o_stop by lia. cbn [bind].
  rewrite Z.eqb_refl. cbn [andb]. rewrite lenVarInt_spec by lia. rewrite <- HP, Z.eqb_refl. cbn [negb].
  unfold alloc_ok. destruct (Z.ltb_spec n (2^31)); [|lia]. rewrite andb_false_r.
  pose proof (compact_size_len n ltac:(lia)) as [CL _]. cbv zeta. rewrite (u64_id (n + pos)) by lia.
  destruct (Z.ltb_spec 0 n).
  - pose proof (fill_loop pos (n + pos) (script_byte_step pos) (fun _ _ _ => eq_refl) (bs ++ rest) pos [] (zeros (Z.to_nat n))) as F.
    cbn [app] in F. rewrite F.
    2:{ unfold len; cbn; lia. } 2:{ rewrite len_zeros, len_nil. lia. }
    replace (Nat.min (length (bs ++ rest)) (Z.to_nat (n + pos - pos))) with (length bs)
      by (rewrite app_length; unfold len in *; lia).
    rewrite firstn_app_len, skipn_app_len by auto.
    rewrite skipn_all2 by (unfold zeros; rewrite repeat_length; unfold len in *; lia).
    cbn [bind]. rewrite app_nil_r. change (Z.of_nat (length bs)) with (len bs). rewrite <- HB, (Z.add_comm pos n), Z.eqb_refl.
    reflexivity.
  - assert (n = 0) by lia. assert (bs = []) as -> by (destruct bs; auto; rewrite len_cons in HB; pose proof (len_nonneg _ bs); lia).
    rewrite read_loop_o_stop by lia. cbn [bind app]. subst n. rewrite H1. cbn [Z.add].
    rewrite Z.eqb_refl, Z.add_0_r. reflexivity.
Qed.

Lemma script_body_wire : forall s bs rest, sc_parsed s = 0 -> sc_arr s = [] ->
  bytes_ok bs -> len bs < 2^31 ->
  script_parse_body s (wire_bytes bs ++ rest) = Ok (parsed_script bs, len (wire_bytes bs), rest).
Proof.
  intros s bs rest HP HA B L. pose proof (len_nonneg _ bs) as L0.
  unfold wire_bytes, parsed_script. rewrite len_wire_bytes.
  change (len (compact_size (len bs) ++ bs)) with (len (wire_bytes bs)). rewrite len_wire_bytes.
  destruct (varint_len_cs (len bs) ltac:(lia)) as (b & t & E & V & S1 & S2).
  rewrite E. cbn [app]. rewrite body_first by auto.
  destruct (Z.ltb_spec (len bs) 253) as [H|H].
  - destruct (S1 H) as [-> ->]. destruct (Z.ltb_spec (len bs) 253); [|lia].
    cbn [app]. assert (len (compact_size (len bs)) = 1) as C1 by (rewrite E; reflexivity).
    replace (len [len bs]) with 1 by reflexivity.
    rewrite (body2_read 0 _ (len bs) bs rest 1) by (auto; lia).
    rewrite Z.sub_0_r. do 3 f_equal. destruct (Z.ltb_spec 0 (len bs)); auto.
    rewrite HA. destruct bs; auto. rewrite len_cons in *. pose proof (len_nonneg _ bs). lia.
  - destruct (S2 H) as (Rb & Bt & Vt). destruct (Z.ltb_spec b 253); [lia|].
    rewrite <- V, E. assert (C : len (b :: t) = len (compact_size (len bs))) by (rewrite E; auto).
    assert (T4 : len t <= 4).
    { rewrite E in V. rewrite len_cons in V. assert (b <> 255 -> varint_len b <= 5).
      { intros. assert (b = 253 \/ b = 254) as [-> | ->] by lia; cbn; lia. }
      assert (b <> 255); [|lia]. intros ->. unfold compact_size in E.
      destruct (Z.ltb_spec (len bs) 253); [lia|]. destruct (Z.ltb_spec (len bs) (2^16)); [discriminate|].
      destruct (Z.ltb_spec (len bs) (2^32)); [discriminate|]. lia. }
    unfold body2 at 1. rewrite <- app_assoc.
    pose proof (len_loop t (bs ++ rest) 0 0 Bt) as LL. rewrite Vt in LL. rewrite len_cons.
    replace (1 + 0 + len t) with (1 + len t) in LL by lia. change (1 + 0) with 1 in LL. rewrite LL by lia. clear LL.
    replace (0 + 2^(8*0) * len bs) with (len bs) by lia. cbn [bind].
    replace (1 + len t) with (len (compact_size (len bs))) by (rewrite <- C, len_cons; lia).
    pose proof (body2_read 0 (zeros 255) (len bs) bs rest (len (compact_size (len bs))) ltac:(lia) eq_refl eq_refl) as R.
    unfold body2 in R. rewrite read_loop_o_stop in R by lia. cbn [bind] in R.
    rewrite R. rewrite Z.sub_0_r. destruct (Z.ltb_spec 0 (len bs)); [|lia]. reflexivity.
Qed.

Lemma script_parse_wire : forall s bs rest, sc_status s = DONE -> sc_len s = len (sc_arr s) ->
  bytes_ok bs -> len bs < 2^31 ->
  script_parse s (wire_bytes bs ++ rest) = Ok (parsed_script bs, len (wire_bytes bs), rest).
Proof.
  intros s bs rest HS HL B L. unfold script_parse. rewrite HS.
  apply script_body_wire; auto; unfold script_clear; cbn [sc_len]; rewrite HL;
    destruct (Z.ltb_spec 0 (len (sc_arr s))); cbn [sc_parsed sc_arr]; auto.
  destruct (sc_arr s); auto. rewrite len_cons in *. pose proof (len_nonneg _ l). lia.
Qed.
Lemma parsed_script_wf : forall bs, bytes_ok bs -> len bs < 2^31 -> script_wf (parsed_script bs).
Proof. intros. repeat split; auto. Qed.
