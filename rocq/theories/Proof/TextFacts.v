(** Hexadecimal text of objects (C83). *)
From Coq Require Import Lia.
From Verif Require Import Base.Bytes Base.BytesFacts Model.Conversion Model.Stream Model.Text Spec.Codecs Spec.Wire Spec.Objects
  Spec.StreamOps Spec.Text Proof.HexBin Proof.StreamTrace.
Open Scope Z_scope.

(** * Strings *)
Lemma cstr_app : forall l k, no_nul l -> cstr (l ++ zeros k) = l.
Proof.
  induction l as [|c t IH]; intros k H.
  - destruct k; reflexivity.
  - inversion H; subst. cbn [app cstr]. destruct (Z.eqb_spec c 0); [congruence|]. f_equal. apply IH; auto.
Qed.
Lemma cstr_id : forall l, no_nul l -> cstr l = l.
Proof. intros l H. rewrite <- (app_nil_r l) at 1. apply (cstr_app l 0 H). Qed.
Lemma hex_char_pos : forall v, 0 <= v < 16 -> nth (Z.to_nat v) hex_alphabet 0 <> 0.
Proof.
  intros v H. assert (S : forall v, 0 <= v < Z.of_nat 16 -> negb (nth (Z.to_nat v) hex_alphabet 0 =? 0) = true).
  { apply zrange_sweep. vm_compute. reflexivity. }
  specialize (S v ltac:(lia)). apply negb_true_iff, Z.eqb_neq in S. auto.
Qed.
Lemma hex_no_nul : forall bs, bytes_ok bs -> no_nul (hex_string bs).
Proof.
  intros bs H. unfold hex_string, no_nul. apply Forall_flat_map. revert H. apply Forall_impl. intros b B. unfold byte_ok in B.
  repeat constructor; apply hex_char_pos; dlia.
Qed.

(** * Writing text *)
Lemma serialize_hex_slice : forall ser k x off out, (x < 2)%nat -> Z.of_nat (2 * k + x) < 2^64 ->
  ser (Some k) off = Ok out -> bytes_ok out -> (length out <= k)%nat ->
  serialize_hex ser (2 * k + x) off = Ok (hex_string out ++ zeros (2 * (k - length out) + x)).
Proof.
  intros ser k x off out X L E B LO. unfold serialize_hex.
  assert (H : sb_holds HEX k x [] (sb_new (zeros (2 * k + x)) HEX)).
  { split; [cbn; lia|]. split; [constructor|]. unfold sb_new. cbn [enc hex_string flat_map app length scale].
    unfold zeros at 2. rewrite repeat_length. f_equal. f_equal. lia. }
  rewrite (sb_available_holds HEX k x [] _ H) by (cbn [scale]; auto).
  rewrite len_nil, Z.sub_0_r, Nat2Z.id, E. cbn [bind].
  destruct (sb_write_n_holds HEX k x out [] _ H) as (s' & W & (_ & _ & S')); auto.
  rewrite W. cbn [bind snd]. rewrite S'. cbn [sb_buf lstep snd app length enc scale].
  rewrite Nat.sub_0_r, Nat.min_l by lia. rewrite firstn_all. reflexivity.
Qed.
Lemma serialize_out : forall ser n off s, serialize ser n off = Ok (len s, s ++ zeros (n - length s)) -> ser (Some n) off = Ok s.
Proof.
  intros ser n off s H. unfold serialize in H. destruct (ser (Some n) off) as [out|]; [|discriminate]. cbn [bind] in H.
  injection H as E1 E2. f_equal. assert (length out = length s) as EL by (unfold len in E1; lia).
  apply (f_equal (firstn (length s))) in E2. rewrite <- EL in E2 at 1.
  rewrite !firstn_app, !firstn_all, EL, !Nat.sub_diag in E2. cbn [firstn] in E2. rewrite !app_nil_r in E2. auto.
Qed.
Lemma to_string_hex : forall ser w, serialize ser (length w) 0 = Ok (len w, w) -> bytes_ok w -> len w < 2^62 ->
  to_string ser (len w) = Ok (hex_string w).
Proof.
  intros ser w E B L. unfold to_string.
  replace (Z.to_nat (2 * len w + 1)) with (2 * length w + 1)%nat by (unfold len; lia).
  assert (E' : ser (Some (length w)) 0 = Ok w).
  { apply serialize_out. rewrite Nat.sub_diag. cbn [zeros repeat]. rewrite app_nil_r. auto. }
  rewrite (serialize_hex_slice ser (length w) 1 0 w) by (auto; unfold len in L; lia). cbn [bind].
  rewrite cstr_app; auto. apply hex_no_nul; auto.
Qed.
Lemma firstn_bytes : forall n l, bytes_ok l -> bytes_ok (firstn n l).
Proof. intros n l H. rewrite <- (firstn_skipn n l) in H. apply bytes_ok_app in H. tauto. Qed.
Lemma skipn_bytes : forall n l, bytes_ok l -> bytes_ok (skipn n l).
Proof. intros n l H. rewrite <- (firstn_skipn n l) in H. apply bytes_ok_app in H. tauto. Qed.
Lemma to_hex_slice : forall ser w off n, gives_slices ser w -> bytes_ok w -> len w < 2^60 -> 0 <= off <= len w -> 0 <= n < 2^60 ->
  to_hex ser (len w) off n = Ok (hex_string (if n =? 0 then skipn (Z.to_nat off) w else firstn (Z.to_nat n) (skipn (Z.to_nat off) w))).
Proof.
  intros ser w off n G B L O N. unfold to_hex.
  set (l := if n =? 0 then u64 (len w - off) else n).
  assert (R : 0 <= l < 2^60) by (subst l; destruct (Z.eqb_spec n 0); [rewrite u64_id by lia|]; lia).
  rewrite u64_id by lia. destruct (Z.leb_spec (2^62) (2 * l)); [lia|].
  replace (Z.to_nat (2 * l)) with (2 * Z.to_nat l + 0)%nat by lia.
  set (s := firstn (Z.to_nat l) (skipn (Z.to_nat off) w)).
  assert (BS : bytes_ok s) by (apply firstn_bytes, skipn_bytes; auto).
  assert (LS : (length s <= Z.to_nat l)%nat) by (subst s; rewrite firstn_length; lia).
  rewrite (serialize_hex_slice ser (Z.to_nat l) 0 off s); auto; try lia.
  2:{ apply serialize_out. apply G. lia. }
  cbn [bind]. rewrite <- app_assoc. change [0] with (zeros 1).
  assert (Z2 : forall a b, zeros a ++ zeros b = zeros (a + b)) by (intros; unfold zeros; rewrite repeat_app; auto).
  rewrite Z2, cstr_app by (apply hex_no_nul; auto). do 2 f_equal. subst s l.
  destruct (Z.eqb_spec n 0); auto. rewrite u64_id by lia. apply firstn_all2. rewrite skipn_length. unfold len. lia.
Qed.
Lemma to_hex_offset : forall ser length off, 0 <= length -> length < off <= length + 2^62 -> length < 2^62 -> to_hex ser length off 0 = UB.
Proof.
  intros ser length off L O S. unfold to_hex. cbn [Z.eqb].
  assert (E : u64 (length - off) = 2^64 - (off - length)).
  { unfold u64. symmetry. apply Zmod_unique with (q := -1); lia. }
  rewrite E. assert (E2 : u64 (2 * (2^64 - (off - length))) = 2^64 - 2 * (off - length)).
  { unfold u64. symmetry. apply Zmod_unique with (q := 1); lia. }
  rewrite E2. destruct (Z.leb_spec (2^62) (2^64 - 2 * (off - length))); auto. lia.
Qed.

(** * Reading text *)
Lemma seen_digits : forall t bs, hex_text t bs -> len t = 2 * len bs -> forall n pre suf l, len (pre ++ t ++ suf) < 2^64 ->
  exists l', seen n (mkPbs (pre ++ t ++ suf) (len pre) HEX l) =
    let! r := seen (n - length bs) (mkPbs (pre ++ t ++ suf) (len (pre ++ t)) HEX l') in Ok (firstn n bs ++ r).
Proof.
  induction 1 as [|c|c1 c2 v1 v2 t bs D1 D2 H IH]; intros E n pre suf l L.
  - exists l. cbn [length firstn app]. rewrite app_nil_r, Nat.sub_0_r, firstn_nil. cbn [app].
    destruct (seen n _) as [r|]; reflexivity.
  - rewrite len_cons, len_nil in E. lia.
  - rewrite !len_cons in E. assert (E' : len t = 2 * len bs) by lia.
    destruct n as [|n]; [exists l; reflexivity|].
    set (text := pre ++ (c1 :: c2 :: t) ++ suf) in *.
    assert (T : text = (pre ++ [c1; c2]) ++ t ++ suf) by (unfold text; rewrite <- app_assoc; reflexivity).
    assert (LL : len text = len pre + 2 + len t + len suf) by (rewrite T, !len_app; change (len [c1; c2]) with 2; lia).
    pose proof (len_nonneg _ pre). pose proof (len_nonneg _ suf). pose proof (len_nonneg _ t).
    assert (A : 0 <? pb_available (mkPbs text (len pre) HEX l) = true).
    { unfold pb_available. cbn [pb_fmt pb_buf pb_cur]. rewrite u64_id by lia. apply Z.ltb_lt. dlia. }
    assert (R : pb_read (mkPbs text (len pre) HEX l) = Ok (16 * v1 + v2, mkPbs text (len pre + 2) HEX (16 * v1 + v2))).
    { unfold pb_read. cbn [pb_fmt pb_buf pb_cur]. rewrite u64_id by lia.
      destruct (Z.ltb_spec (len pre) (len text - 1)); [|lia].
      assert (A1 : aget text (len pre) = Ok c1) by (unfold text; cbn [app]; apply aget_mid).
      assert (A2 : aget text (len pre + 1) = Ok c2).
      { replace (len pre + 1) with (len (pre ++ [c1])) by (rewrite len_app; reflexivity).
        replace text with ((pre ++ [c1]) ++ c2 :: t ++ suf) by (unfold text; rewrite <- app_assoc; reflexivity). apply aget_mid. }
      rewrite A1, A2. cbn [bind].
      apply hexToVal_digit in D1 as [D1 R1], D2 as [D2 R2]. rewrite D1, D2.
      replace ((v1 <? 16) && (v2 <? 16)) with true by (symmetry; apply andb_true_intro; lia).
      rewrite Z.shiftl_mul_pow2 by lia. replace (v1 * 2^4 + v2) with (16 * v1 + v2) by lia. reflexivity. }
    cbn [seen]. rewrite A, R. cbn [bind fst snd].
    rewrite T in L. destruct (IH E' n (pre ++ [c1; c2]) suf (16 * v1 + v2) L) as (l' & IH').
    exists l'. replace (len pre + 2) with (len (pre ++ [c1; c2])) by (rewrite len_app; reflexivity).
    rewrite T at 1. rewrite IH', <- T. clear IH'.
    replace (len ((pre ++ [c1; c2]) ++ t)) with (len (pre ++ c1 :: c2 :: t)) by (rewrite !len_app, !len_cons, len_nil; lia).
    cbn [length Nat.sub]. destruct (seen (n - length bs) _) as [r|]; cbn [bind]; auto.
    apply hexToVal_digit in D1, D2. rewrite u8_id by (unfold byte_ok; lia). reflexivity.
Qed.
Lemma hex_text_even : forall t bs, hex_text t bs ->
  (len t = 2 * len bs) \/ exists t' c, t = t' ++ [c] /\ hex_text t' bs /\ len t' = 2 * len bs.
Proof.
  induction 1 as [|c|c1 c2 v1 v2 t bs D1 D2 H IH].
  - left. reflexivity.
  - right. exists [], c. repeat split. constructor.
  - destruct IH as [E|(t' & c & -> & H' & E)].
    + left. rewrite !len_cons. lia.
    + right. exists (c1 :: c2 :: t'), c. split; [reflexivity|]. split; [constructor; auto|]. rewrite !len_cons. lia.
Qed.
Lemma seen_text : forall n text bs, hex_text text bs -> len text < 2^64 -> seen n (pb_new text HEX) = Ok (firstn n bs).
Proof.
  intros n text bs H L. unfold pb_new.
  assert (Q : exists t suf, text = t ++ suf /\ hex_text t bs /\ len t = 2 * len bs /\ len suf <= 1).
  { destruct (hex_text_even _ _ H) as [E|(t & c & -> & H' & E)].
    - exists text, []. rewrite app_nil_r, len_nil. repeat split; auto. lia.
    - exists t, [c]. repeat split; auto. rewrite len_cons, len_nil. lia. }
  destruct Q as (t & suf & -> & H' & E & S).
  destruct (seen_digits t bs H' E n [] suf (-1)) as (l' & Q); [exact L|]. cbn [app] in Q. change (len []) with 0 in Q.
  rewrite Q. destruct (n - length bs)%nat as [|m]; cbn [seen bind]; [rewrite app_nil_r; auto|].
  assert (A : 0 <? pb_available (mkPbs (t ++ suf) (len t) HEX l') = false).
  { unfold pb_available. cbn [pb_fmt pb_buf pb_cur]. rewrite len_app in *. pose proof (len_nonneg _ suf). rewrite u64_id by (pose proof (len_nonneg _ t); lia).
    apply Z.ltb_ge. dlia. }
  rewrite A. cbn [bind]. rewrite app_nil_r. auto.
Qed.
Lemma hexToVal_none : forall c, (~ exists v, is_hex_digit c v) -> hexToVal c = 255.
Proof.
  intros c H. unfold hexToVal, is_hex_digit in *.
  destruct (Z.leb_spec 48 c), (Z.leb_spec c 57); cbn [andb]; try (exfalso; apply H; eexists; left; split; [lia|reflexivity]);
  destruct (Z.leb_spec 65 c), (Z.leb_spec c 70); cbn [andb]; try (exfalso; apply H; eexists; right; left; split; [lia|reflexivity]);
  destruct (Z.leb_spec 97 c), (Z.leb_spec c 102); cbn [andb]; try (exfalso; apply H; eexists; right; right; split; [lia|reflexivity]); auto.
Qed.
Lemma seen_stuck_here : forall n pre a b rest l, not_hex a b -> len (pre ++ a :: b :: rest) < 2^64 ->
  seen n (mkPbs (pre ++ a :: b :: rest) (len pre) HEX l) = Ok (repeat 255 n).
Proof.
  intros n pre a b rest l N L. set (text := pre ++ a :: b :: rest) in *.
  assert (LL : len text = len pre + 2 + len rest) by (unfold text; rewrite len_app, !len_cons; lia).
  pose proof (len_nonneg _ pre). pose proof (len_nonneg _ rest).
  assert (A : 0 <? pb_available (mkPbs text (len pre) HEX l) = true).
  { unfold pb_available. cbn [pb_fmt pb_buf pb_cur]. rewrite u64_id by lia. apply Z.ltb_lt. dlia. }
  assert (R : pb_read (mkPbs text (len pre) HEX l) = Ok (-1, mkPbs text (len pre) HEX l)).
  { unfold pb_read. cbn [pb_fmt pb_buf pb_cur]. rewrite u64_id by lia.
    destruct (Z.ltb_spec (len pre) (len text - 1)); [|lia].
    assert (A1 : aget text (len pre) = Ok a) by apply aget_mid.
    assert (A2 : aget text (len pre + 1) = Ok b).
    { replace (len pre + 1) with (len (pre ++ [a])) by (rewrite len_app; reflexivity).
      replace text with ((pre ++ [a]) ++ b :: rest) by (unfold text; rewrite <- app_assoc; reflexivity). apply aget_mid. }
    rewrite A1, A2. cbn [bind].
    replace ((hexToVal a <? 16) && (hexToVal b <? 16)) with false; auto. symmetry.
    destruct N as [N|N]; apply hexToVal_none in N; rewrite N; [reflexivity|]. change (255 <? 16) with false. apply andb_false_r. }
  induction n as [|n IH]; [reflexivity|]. cbn [seen]. rewrite A, R. cbn [bind fst snd]. rewrite IH. reflexivity.
Qed.
Lemma seen_stuck : forall n t bs a b rest, hex_text t bs -> len t = 2 * len bs -> not_hex a b -> len (t ++ a :: b :: rest) < 2^64 ->
  seen n (pb_new (t ++ a :: b :: rest) HEX) = Ok (firstn n (bs ++ repeat 255 n)).
Proof.
  intros n t bs a b rest H E N L. unfold pb_new.
  destruct (seen_digits t bs H E n [] (a :: b :: rest) (-1) L) as (l' & Q). cbn [app] in Q. change (len []) with 0 in Q.
  rewrite Q, seen_stuck_here by auto. cbn [bind]. f_equal. rewrite firstn_app. f_equal.
  assert (F : forall k m, (k <= m)%nat -> firstn k (repeat 255 m) = repeat 255 k).
  { induction k as [|k IH]; intros [|m] K; auto; [lia|]. cbn [repeat firstn]. f_equal. apply IH. lia. }
  rewrite F by lia. reflexivity.
Qed.
Lemma digit_pos : forall c v, is_hex_digit c v -> c <> 0.
Proof. unfold is_hex_digit. intros c v H. lia. Qed.
Lemma hex_text_no_nul : forall t bs, hex_text t bs -> len t = 2 * len bs -> no_nul t.
Proof.
  induction 1 as [|c|c1 c2 v1 v2 t bs D1 D2 H IH]; intros E.
  - constructor.
  - rewrite len_cons, len_nil in E. lia.
  - rewrite !len_cons in E. repeat constructor; eauto using digit_pos. apply IH. lia.
Qed.
(** Parsing text. *)
Lemma text_parse_ok : forall A (parse : A -> list Z -> outcome (A * Z * list Z)) n a text bs,
  hex_text text bs -> len text < 2^64 -> (length bs <= n)%nat -> text_parse parse n a text = parse a bs.
Proof.
  intros A parse n a text bs H L N. unfold text_parse.
  assert (Q : exists text', cstr text = text' /\ hex_text text' bs /\ len text' < 2^64).
  { destruct (hex_text_even _ _ H) as [E|(t & c & -> & H' & E)].
    - exists text. rewrite cstr_id by (eapply hex_text_no_nul; eauto). auto.
    - pose proof (hex_text_no_nul _ _ H' E) as NN. destruct (Z.eq_dec c 0) as [->|NE].
      + exists t. split; [exact (cstr_app t 1 NN)|]. repeat split; auto. rewrite len_app in L. pose proof (len_nonneg _ [0]). lia.
      + exists (t ++ [c]). rewrite cstr_id; auto. apply Forall_app. repeat constructor; auto. }
  destruct Q as (t & -> & H' & L'). rewrite (seen_text n t bs H' L'). cbn [bind]. rewrite firstn_all2 by auto. reflexivity.
Qed.
Lemma text_parse_stuck : forall A (parse : A -> list Z -> outcome (A * Z * list Z)) n a t bs x y rest,
  hex_text t bs -> len t = 2 * len bs -> not_hex x y -> no_nul (x :: y :: rest) -> len (t ++ x :: y :: rest) < 2^64 -> (length bs <= n)%nat ->
  text_parse parse n a (t ++ x :: y :: rest) = parse a (bs ++ repeat 255 (n - length bs)).
Proof.
  intros A parse n a t bs x y rest H E N NN L LB. unfold text_parse.
  rewrite cstr_id by (apply Forall_app; split; [eapply hex_text_no_nul; eauto|auto]).
  rewrite (seen_stuck n t bs x y rest H E N L). cbn [bind]. f_equal. rewrite firstn_app. f_equal; [apply firstn_all2; auto|].
  assert (F : forall k m, (k <= m)%nat -> firstn k (repeat 255 m) = repeat 255 k).
  { induction k as [|k IH]; intros [|m] K; auto; [lia|]. cbn [repeat firstn]. f_equal. apply IH. lia. }
  apply F. lia.
Qed.
Lemma alphabet_digit : forall v, 0 <= v < 16 -> is_hex_digit (nth (Z.to_nat v) hex_alphabet 0) v.
Proof.
  intros v H. unfold is_hex_digit.
  assert (S : forall v, 0 <= v < Z.of_nat 16 -> let c := nth (Z.to_nat v) hex_alphabet 0 in
    ((48 <=? c) && (c <=? 57) && (v =? c - 48)) || ((97 <=? c) && (c <=? 102) && (v =? c - 87)) = true).
  { apply zrange_sweep. vm_compute. reflexivity. }
  specialize (S v ltac:(lia)). cbv zeta in S. apply orb_prop in S as [S|S]; apply andb_prop in S as [S S3]; apply andb_prop in S as [S1 S2]; lia.
Qed.
Lemma hex_string_text : forall bs, bytes_ok bs -> hex_text (hex_string bs) bs.
Proof.
  induction bs as [|b t IH]; intros H; [constructor|]. inversion H; subst. unfold byte_ok in *.
  change (hex_string (b :: t)) with (nth (Z.to_nat (b / 16)) hex_alphabet 0 :: nth (Z.to_nat (b mod 16)) hex_alphabet 0 :: hex_string t).
  replace (b :: t) with (16 * (b / 16) + b mod 16 :: t) by (f_equal; dlia). constructor; auto; apply alphabet_digit; dlia.
Qed.
Lemma hex_string_len : forall bs, len (hex_string bs) = 2 * len bs.
Proof. intros bs. exact (enc_len HEX bs). Qed.
