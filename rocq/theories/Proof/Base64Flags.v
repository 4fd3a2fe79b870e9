(** Exactly which text fromBase64 takes with any flags (C84). *)
From Coq Require Import Lia.
From Verif Require Import Base.Bytes Base.BytesFacts Model.Conversion Model.Text Spec.Codecs Spec.Text Spec.Base64 Proof.IntVarint Proof.Base64 Proof.Base64Exact.
Open Scope Z_scope.

Lemma norm_std : forall fl d, 0 <= d < 64 -> norm_char fl (nth (Z.to_nat d) (b64_alphabet false) 0) = nth (Z.to_nat d) (b64_alphabet false) 0.
Proof.
  intros fl d R. unfold norm_char. destruct (urlsafe fl).
  - assert (S : forall d, 0 <= d < Z.of_nat 64 -> negb ((nth (Z.to_nat d) (b64_alphabet false) 0 =? 45) || (nth (Z.to_nat d) (b64_alphabet false) 0 =? 95)) = true) by (apply zrange_sweep; vm_compute; reflexivity).
    specialize (S d ltac:(lia)). apply negb_true_iff, orb_false_iff in S as [A B]. rewrite A. cbn [andb]. cbv zeta. rewrite B. reflexivity.
  - rewrite !andb_false_r. reflexivity.
Qed.
Lemma norm_url : forall fl d, 0 <= d < 64 -> urlsafe fl = true -> norm_char fl (nth (Z.to_nat d) (b64_alphabet true) 0) = nth (Z.to_nat d) (b64_alphabet false) 0.
Proof.
  intros fl d R U. unfold norm_char. rewrite U.
  assert (S : forall d, 0 <= d < Z.of_nat 64 -> ((let c0 := nth (Z.to_nat d) (b64_alphabet true) 0 in let c1 := if (c0 =? 45) && true then 43 else c0 in
     if (c1 =? 95) && true then 47 else c1) =? nth (Z.to_nat d) (b64_alphabet false) 0) = true) by (apply zrange_sweep; vm_compute; reflexivity).
  specialize (S d ltac:(lia)). apply Z.eqb_eq in S. exact S.
Qed.
Lemma value_norm : forall fl c d, b64_value (urlsafe fl) c d <-> b64_digit (norm_char fl c) d.
Proof.
  intros fl c d. split.
  - intros (R & [->|[U ->]]); (split; [exact R|]); [apply norm_std|apply norm_url]; auto.
  - intros D. pose proof (proj1 D) as R. split; [exact R|]. unfold norm_char in D. destruct (urlsafe fl).
    + rewrite !andb_true_r in D. destruct (Z.eqb_spec c 45) as [->|N1].
      * right. split; auto. change (b64_digit 43 d) in D. rewrite (digit_fun 43 d 62 D); [reflexivity|split; [lia|reflexivity]].
      * destruct (Z.eqb_spec c 95) as [->|N2]; [|left; exact (proj2 D)]. right. split; auto. rewrite (digit_fun 47 d 63 D); [reflexivity|split; [lia|reflexivity]].
    + rewrite !andb_false_r in D. left. exact (proj2 D).
Qed.
Lemma norm_zero : forall fl c, norm_char fl c = 0 <-> c = 0.
Proof.
  intros fl c. unfold norm_char. destruct (urlsafe fl); [|rewrite !andb_false_r; tauto]. rewrite !andb_true_r.
  destruct (Z.eqb_spec c 45); [subst; split; discriminate|]. destruct (Z.eqb_spec c 95); [subst; split; discriminate|]. tauto.
Qed.
Lemma value_fun : forall fl c d e, b64_value (urlsafe fl) c d -> b64_value (urlsafe fl) c e -> d = e.
Proof. intros fl c d e D E. apply value_norm in D, E. exact (digit_fun _ _ _ D E). Qed.
Lemma norm_pad : forall fl, norm_char fl 61 = 61. Proof. intros fl. unfold norm_char. reflexivity. Qed.
Lemma value_pad : forall fl d, ~ b64_value (urlsafe fl) 61 d.
Proof. intros fl d D. apply value_norm in D. rewrite norm_pad in D. exact (digit_not_pad d D). Qed.
Lemma value_dec : forall fl c, c <> 0 -> (exists d, b64_value (urlsafe fl) c d) \/ ((forall d, ~ b64_value (urlsafe fl) c d) /\ strchr BASE64_CHARS (norm_char fl c) = None).
Proof.
  intros fl c N. assert (N' : norm_char fl c <> 0) by (rewrite norm_zero; exact N).
  destruct (strchr_std (norm_char fl c) N') as [(d & D & _)|(B & E)]; [left; exists d; apply value_norm, D|].
  right. split; [|exact E]. intros d D. apply B. exists d. apply value_norm, D.
Qed.
(** ** One character *)
Lemma fl_digit : forall fl k i val c d t, b64_value (urlsafe fl) c d -> 0 <= val < 2^20 ->
  b64_group fl (S k) i val (c :: t) = b64_group fl k (i + 1) (val * 64 + d) t.
Proof.
  intros fl k i val c d t V B. apply value_norm in V. pose proof (digit_nonzero _ _ V) as NZ. pose proof (proj1 V) as R.
  assert (E : strchr BASE64_CHARS (norm_char fl c) = Some d).
  { destruct (strchr_std _ NZ) as [(e & D & E)|(X & _)]; [|exfalso; eauto]. rewrite (digit_fun _ _ _ V D). exact E. }
  cbn [b64_group]. unfold norm_char in E, NZ. cbv zeta in E, NZ. rewrite E. apply Z.eqb_neq in NZ. rewrite NZ, andb_false_r.
  change 63 with (Z.ones 6). rewrite Z.land_ones by lia. change (2^6) with 64. rewrite (Z.mod_small d 64) by lia. rewrite sh6 by auto. rewrite u32_id by lia. reflexivity.
Qed.
Definition stop_at (i val : Z) : b64_group_result :=
  if i =? 3 then GLast [Z.land (Z.shiftr (Z.shiftr val 2) 8) 255; Z.land (Z.shiftr val 2) 255] else if i =? 2 then GLast [Z.land (Z.shiftr val 4) 255] else GFail.
Lemma fl_pad : forall fl k i val t, b64_group fl (S k) i val (61 :: t) = stop_at i val.
Proof. intros fl k i val t. cbn [b64_group]. change (61 =? 45) with false. cbn [andb]. change (61 =? 95) with false. cbn [andb]. reflexivity. Qed.
Lemma fl_nul : forall fl k i val t, nopad fl = true -> b64_group fl (S k) i val (0 :: t) = stop_at i val.
Proof.
  intros fl k i val t N. cbn [b64_group]. change (0 =? 45) with false. cbn [andb]. change (0 =? 95) with false. cbn [andb]. rewrite N. reflexivity.
Qed.
Lemma fl_bad : forall fl k i val c t, c <> 61 -> c <> 0 -> strchr BASE64_CHARS (norm_char fl c) = None -> b64_group fl (S k) i val (c :: t) = GFail.
Proof. intros fl k i val c t P N E. cbn [b64_group]. unfold norm_char in E. cbv zeta in E. rewrite E. apply Z.eqb_neq in P. rewrite P. reflexivity. Qed.
(** ** One group *)
Inductive fl_reads (fl : b64_flags) : list Z -> b64_group_result -> Prop :=
| fr_four : forall c0 c1 c2 c3 d0 d1 d2 d3 t, b64_value (urlsafe fl) c0 d0 -> b64_value (urlsafe fl) c1 d1 -> b64_value (urlsafe fl) c2 d2 -> b64_value (urlsafe fl) c3 d3 ->
    fl_reads fl (c0 :: c1 :: c2 :: c3 :: t) (GFull (((d0 * 64 + d1) * 64 + d2) * 64 + d3))
| fr_three : forall c0 c1 c2 d0 d1 d2 t, b64_value (urlsafe fl) c0 d0 -> b64_value (urlsafe fl) c1 d1 -> b64_value (urlsafe fl) c2 d2 ->
    fl_reads fl (c0 :: c1 :: c2 :: 61 :: t) (GLast (be_bytes 2 (((d0 * 64 + d1) * 64 + d2) / 4)))
| fr_two : forall c0 c1 d0 d1 t, b64_value (urlsafe fl) c0 d0 -> b64_value (urlsafe fl) c1 d1 -> (t <> [] \/ nopad fl = true) ->
    fl_reads fl (c0 :: c1 :: 61 :: t) (GLast [(d0 * 64 + d1) / 16])
| fr_three_end : forall c0 c1 c2 d0 d1 d2, nopad fl = true -> b64_value (urlsafe fl) c0 d0 -> b64_value (urlsafe fl) c1 d1 -> b64_value (urlsafe fl) c2 d2 ->
    fl_reads fl [c0; c1; c2] (GLast (be_bytes 2 (((d0 * 64 + d1) * 64 + d2) / 4)))
| fr_two_end : forall c0 c1 d0 d1, nopad fl = true -> b64_value (urlsafe fl) c0 d0 -> b64_value (urlsafe fl) c1 d1 -> fl_reads fl [c0; c1] (GLast [(d0 * 64 + d1) / 16]).
Lemma stop3 : forall d0 d1 d2, stop_at (0 + 1 + 1 + 1) (((0 * 64 + d0) * 64 + d1) * 64 + d2) = GLast (be_bytes 2 (((d0 * 64 + d1) * 64 + d2) / 4)).
Proof.
  intros. unfold stop_at. change (0 + 1 + 1 + 1 =? 3) with true. cbn iota. replace ((0 * 64 + d0) * 64 + d1) with (d0 * 64 + d1) by lia. set (v := (d0 * 64 + d1) * 64 + d2).
  rewrite !land255, !Z.shiftr_div_pow2 by lia. change (2^2) with 4. change (2^8) with 256. reflexivity.
Qed.
Lemma stop2 : forall d0 d1, 0 <= d0 < 64 -> 0 <= d1 < 64 -> stop_at (0 + 1 + 1) ((0 * 64 + d0) * 64 + d1) = GLast [(d0 * 64 + d1) / 16].
Proof.
  intros. unfold stop_at. change (0 + 1 + 1 =? 3) with false. change (0 + 1 + 1 =? 2) with true. cbn iota.
  rewrite land255, Z.shiftr_div_pow2 by lia. change (2^4) with 16. do 2 f_equal. dlia.
Qed.
Lemma no_reads : forall fl l, (forall r, fl_reads fl l r -> False) -> forall r, ~ fl_reads fl l r. Proof. auto. Qed.
Ltac kill := intros r G; inversion G; subst; try congruence; try (match goal with X : b64_value _ 61 _ |- _ => exact (value_pad _ _ X) end);
  match goal with B : forall d, ~ b64_value _ ?c d, X : b64_value _ ?c _ |- _ => exact (B _ X) end.
Lemma fl_group : forall fl text, no_nul text -> text <> [] -> (4 <= length text)%nat \/ nopad fl = true ->
  let g := b64_group fl 4 0 0 (text ++ [0]) in fl_reads fl text g \/ (g = GFail /\ forall r, ~ fl_reads fl text r).
Proof.
  intros fl text N NE F g. subst g. destruct text as [|c0 t]; [congruence|]. inversion N as [|? ? N0 Nt]; subst. clear N. cbn [app].
  destruct (value_dec fl c0 N0) as [(d0 & D0)|(B0 & E0)].
  2:{ right. split; [|kill]. destruct (Z.eq_dec c0 61) as [->|P]; [rewrite fl_pad; reflexivity|apply fl_bad; auto]. }
  pose proof (proj1 D0) as R0. rewrite (fl_digit _ _ _ _ _ d0) by (auto; lia).
  destruct t as [|c1 t].
  { destruct F as [F|F]; [cbn in F; lia|]. right. cbn [app]. rewrite fl_nul by exact F. split; [reflexivity|intros r G; inversion G]. }
  inversion Nt as [|? ? N1 Nt']; subst. clear Nt. cbn [app].
  destruct (value_dec fl c1 N1) as [(d1 & D1)|(B1 & E1)].
  2:{ right. split; [|kill]. destruct (Z.eq_dec c1 61) as [->|P]; [rewrite fl_pad; reflexivity|apply fl_bad; auto]. }
  pose proof (proj1 D1) as R1. rewrite (fl_digit _ _ _ _ _ d1) by (auto; lia).
  destruct t as [|c2 t].
  { destruct F as [F|F]; [cbn in F; lia|]. left. cbn [app]. rewrite fl_nul by exact F. rewrite stop2 by lia. apply fr_two_end; auto. }
  inversion Nt' as [|? ? N2 Nt]; subst. clear Nt'. cbn [app].
  destruct (Z.eq_dec c2 61) as [->|P2].
  { left. rewrite fl_pad, stop2 by lia. apply fr_two; auto. destruct F as [F|F]; auto. left. intros ->. cbn in F. lia. }
  destruct (value_dec fl c2 N2) as [(d2 & D2)|(B2 & E2)].
  2:{ right. split; [apply fl_bad; auto|kill]. }
  pose proof (proj1 D2) as R2. rewrite (fl_digit _ _ _ _ _ d2) by (auto; lia).
  destruct t as [|c3 t].
  { destruct F as [F|F]; [cbn in F; lia|]. left. cbn [app]. rewrite fl_nul by exact F. rewrite stop3. apply fr_three_end; auto. }
  inversion Nt as [|? ? N3 Nt']; subst. clear Nt. cbn [app].
  destruct (Z.eq_dec c3 61) as [->|P3]; [left; rewrite fl_pad, stop3; apply fr_three; auto|].
  destruct (value_dec fl c3 N3) as [(d3 & D3)|(B3 & E3)].
  2:{ right. split; [apply fl_bad; auto|kill]. }
  pose proof (proj1 D3) as R3. rewrite (fl_digit _ _ _ _ _ d3) by (auto; lia). cbn [b64_group]. left.
  replace ((((0 * 64 + d0) * 64 + d1) * 64 + d2) * 64 + d3) with (((d0 * 64 + d1) * 64 + d2) * 64 + d3) by lia. apply fr_four; auto.
Qed.
Lemma fl_fun : forall fl l r r', fl_reads fl l r -> fl_reads fl l r' -> r = r'.
Proof.
  intros fl l r r' H H'. inversion H; subst; inversion H'; subst; try (exfalso; eapply value_pad; eassumption); try discriminate;
    repeat match goal with A : b64_value _ ?c ?d, B : b64_value _ ?c ?e |- _ => rewrite (value_fun fl _ _ _ A B) in *; clear A end; reflexivity.
Qed.
(** ** The whole text *)
Definition takes (fl : b64_flags) := b64_takes (urlsafe fl) (nopad fl).
Lemma takes_last : forall fl l bs, takes fl l bs -> l <> [] -> (exists v t d, fl_reads fl l (GFull v) /\ l = firstn 4 l ++ t /\ takes fl t d /\ bs = be_bytes 3 v ++ d) \/ fl_reads fl l (GLast bs).
Proof.
  intros fl l bs T N. unfold takes in T. inversion T; subst; try congruence.
  - left. eexists _, t, _. split; [apply fr_four; eassumption|]. repeat split; auto.
  - right. apply fr_three; auto.
  - right. apply fr_two; auto.
  - right. apply fr_three_end; auto.
  - right. apply fr_two_end; auto.
Qed.
Lemma reads_last : forall fl l bs, fl_reads fl l (GLast bs) -> takes fl l bs.
Proof. intros fl l bs R. unfold takes. inversion R; subst; [apply bt_three|apply bt_two|apply bt_three_end|apply bt_two_end]; auto. Qed.
Lemma reads_full : forall fl l v, fl_reads fl l (GFull v) -> 0 <= v < 2^24 /\ (4 <= length l)%nat /\ forall bs, takes fl (skipn 4 l) bs -> takes fl l (be_bytes 3 v ++ bs).
Proof.
  intros fl l v R. inversion R; subst. repeat match goal with D : b64_value _ _ _ |- _ => pose proof (proj1 D); revert D end. intros.
  split; [change (2^24) with 16777216; lia|]. split; [cbn; lia|]. intros bs T. unfold takes in *. apply bt_four; auto.
Qed.
Definition fl_ok (fl : b64_flags) (text acc : list Z) (size : Z) (r : outcome (option (list Z))) : Prop :=
  (exists bs, takes fl text bs /\ len acc + len bs <= size /\ r = Ok (Some (acc ++ bs))) \/
  ((forall bs, takes fl text bs -> size < len acc + len bs) /\ r = Ok None).
Lemma fl_loop : forall fl fuel text acc size, no_nul text -> (length text <= fuel)%nat -> len acc <= size ->
  fl_ok fl text acc size (fromBase64_loop fuel fl text acc size).
Proof.
  intros fl. induction fuel as [|fuel IH]; intros text acc size N L S.
  - destruct text; [|cbn in L; lia]. left. exists []. repeat split; [constructor|rewrite len_nil; lia|cbn; rewrite app_nil_r; auto].
  - destruct text as [|c0 t]; [left; exists []; repeat split; [constructor|rewrite len_nil; lia|cbn; rewrite app_nil_r; auto]|].
    assert (NE : c0 :: t <> []) by discriminate. cbn [fromBase64_loop]. set (text := c0 :: t) in *. clearbody text. clear c0 t.
    destruct ((len text <? 4) && negb (nopad fl)) eqn:C.
    { apply andb_true_iff in C as [C D]. apply Z.ltb_lt in C. apply negb_true_iff in D. right. split; [|reflexivity].
      intros bs T. exfalso. unfold takes in T. rewrite D in T. unfold len in C. inversion T; subst; try congruence; cbn [length] in C; try lia.
      match goal with X : _ \/ _ |- _ => destruct X as [X|X]; [|discriminate] end. destruct t; [congruence|cbn [length] in C; lia]. }
    assert (F : (4 <= length text)%nat \/ nopad fl = true).
    { apply andb_false_iff in C as [C|C]; [left; apply Z.ltb_ge in C; unfold len in C; lia|right; apply negb_false_iff in C; exact C]. }
    pose proof (fl_group fl text N NE F) as G. cbv zeta in G. destruct (b64_group fl 4 0 0 (text ++ [0])) as [v|l| |].
    + destruct G as [G|[G _]]; [|discriminate]. destruct (reads_full fl text v G) as (RV & LT & TK).
      assert (UN : forall bs, takes fl text bs -> exists d, takes fl (skipn 4 text) d /\ bs = be_bytes 3 v ++ d).
      { intros bs T. destruct (takes_last fl text bs T NE) as [(w & t & d & R & E & TD & ->)|R]; [|pose proof (fl_fun _ _ _ _ G R); discriminate].
        pose proof (fl_fun _ _ _ _ G R) as Q. injection Q as <-. exists d. split; auto. rewrite E. rewrite skipn_app.
        rewrite (skipn_all2 (firstn 4 text)) by (rewrite firstn_length; lia). rewrite firstn_length. replace (4 - min 4 (length text))%nat with 0%nat by lia. exact TD. }
      destruct (Z.ltb_spec size (len acc + 3)).
      * right. split; auto. intros bs T. destruct (UN bs T) as (d & _ & ->). rewrite len_app, be_bytes_len. pose proof (len_nonneg _ d). lia.
      * rewrite intToBigEndian_ok by (change (2^64) with 18446744073709551616; change (2^24) with 16777216 in RV; lia). cbn [bind].
        assert (NS : no_nul (skipn 4 text)).
        { unfold no_nul in *. rewrite <- (firstn_skipn 4 text) in N. apply Forall_app in N. tauto. }
        destruct (IH (skipn 4 text) (acc ++ be_bytes 3 v) size NS) as [(bs & B & LS & E)|(B & E)].
        -- rewrite skipn_length. lia.
        -- rewrite len_app, be_bytes_len. lia.
        -- left. exists (be_bytes 3 v ++ bs). split; [apply TK, B|]. rewrite len_app in *. split; [lia|]. rewrite E, app_assoc. reflexivity.
        -- right. split; auto. intros bs T. destruct (UN bs T) as (d & TD & ->). specialize (B d TD). rewrite !len_app, be_bytes_len in *. lia.
    + destruct G as [G|[G _]]; [|discriminate].
      assert (UN : forall bs, takes fl text bs -> bs = l).
      { intros bs T. destruct (takes_last fl text bs T NE) as [(w & t & d & R & _)|R]; pose proof (fl_fun _ _ _ _ G R) as Q; [discriminate|congruence]. }
      destruct (Z.ltb_spec size (len acc + len l)).
      * right. split; auto. intros bs B. rewrite (UN bs B). auto.
      * left. exists l. repeat split; auto. apply reads_last, G.
    + destruct G as [G|[_ G]]; [inversion G|]. right. split; auto. intros bs T. exfalso.
      destruct (takes_last fl text bs T NE) as [(w & t & d & R & _)|R]; exact (G _ R).
    + destruct G as [G|[G _]]; [inversion G|discriminate].
Qed.
Lemma takes_fun : forall fl text bs bs', takes fl text bs -> takes fl text bs' -> bs = bs'.
Proof.
  intros fl text bs bs' T. revert bs'. unfold takes in *. induction T; intros bs' T';
    [inversion T'; reflexivity|..]; (inversion T'; subst; try (exfalso; eapply value_pad; eassumption); try discriminate;
    repeat match goal with A : b64_value _ ?c ?d, B : b64_value _ ?c ?e |- _ => rewrite (value_fun fl _ _ _ A B) in *; clear A end); try reflexivity.
  f_equal. apply IHT. assumption.
Qed.
Lemma fl_exact : forall fl text out l, no_nul text -> fromBase64Length fl text = Ok l -> l <= len out ->
  (forall bs, takes fl text bs -> len bs <= len out -> fromBase64 fl text out = Ok (len bs, bs ++ zeros (length out - length bs))) /\
  ((forall bs, takes fl text bs -> len out < len bs) -> fromBase64 fl text out = Ok (0, zeros (length out))).
Proof.
  intros fl text out l N E L. unfold fromBase64. rewrite E. cbn [bind]. destruct (Z.ltb_spec (len out) l); [lia|].
  destruct (fl_loop fl (length text) text [] (len out) N (Nat.le_refl _) ltac:(rewrite len_nil; apply len_nonneg)) as [(bs & B & LS & Q)|(B & Q)]; rewrite Q; cbn [bind]; rewrite len_nil in *.
  - split.
    + intros bs' T _. rewrite (takes_fun _ _ _ _ T B). reflexivity.
    + intros X. specialize (X bs B). lia.
  - split; [|reflexivity]. intros bs T LB. specialize (B bs T). lia.
Qed.
(** ** The texts of RFC 4648, with and without padding, in either alphabet *)
Lemma ch_value : forall fl u d, (u = true -> urlsafe fl = true) -> 0 <= d < 64 -> b64_value (urlsafe fl) (nth (Z.to_nat d) (b64_alphabet u) 0) d.
Proof. intros fl u d U R. split; [exact R|]. destruct u; [right; auto|left; reflexivity]. Qed.
Lemma be1 : forall x, 0 <= x < 256 -> be_bytes 1 x = [x].
Proof. intros x R. unfold be_bytes. cbn [le_bytes rev app]. f_equal. rewrite Z.mod_small; auto. Qed.
Lemma be2 : forall a b, byte_ok a -> byte_ok b -> be_bytes 2 (a * 256 + b) = [a; b].
Proof. unfold byte_ok. intros a b A B. unfold be_bytes. cbn [le_bytes rev app]. repeat f_equal; dlia. Qed.
Lemma be3 : forall a b c, byte_ok a -> byte_ok b -> byte_ok c -> be_bytes 3 (a * 65536 + b * 256 + c) = [a; b; c].
Proof. unfold byte_ok. intros a b c A B C. unfold be_bytes. cbn [le_bytes rev app]. repeat f_equal; dlia. Qed.
Lemma text_takes : forall fl u p, (u = true -> urlsafe fl = true) -> (p = false -> nopad fl = true) -> forall n bs, (length bs <= n)%nat -> bytes_ok bs -> takes fl (base64_text u p bs) bs.
Proof.
  intros fl u p U P. unfold takes. induction n as [|n IH]; intros bs L B; [destruct bs; [constructor|cbn in L; lia]|].
  destruct bs as [|a [|b [|c t]]]; [constructor| | |].
  - inversion B as [|? ? A _]; subst. unfold byte_ok in A. cbn [base64_text]. cbv zeta.
    assert (E : [a] = [(a / 4 * 64 + a mod 4 * 16) / 16]) by (f_equal; dlia). rewrite E. destruct p.
    + apply (bt_two (urlsafe fl) (nopad fl) _ _ (a / 4) (a mod 4 * 16) [61]); [apply ch_value; auto; dlia|apply ch_value; auto; dlia|left; discriminate].
    + apply (bt_two_end (urlsafe fl) (nopad fl) _ _ (a / 4) (a mod 4 * 16)); [auto|apply ch_value; auto; dlia|apply ch_value; auto; dlia].
  - inversion B as [|? ? A B']; subst. inversion B' as [|? ? A1 _]; subst. cbn [base64_text]. cbv zeta.
    assert (E : [a; b] = be_bytes 2 (((a / 4 * 64 + (a mod 4 * 16 + b / 16)) * 64 + b mod 16 * 4) / 4)).
    { rewrite <- be2 by auto. f_equal. unfold byte_ok in *. dlia. }
    rewrite E. unfold byte_ok in *. destruct p.
    + apply (bt_three (urlsafe fl) (nopad fl) _ _ _ (a / 4) (a mod 4 * 16 + b / 16) (b mod 16 * 4) []); apply ch_value; auto; dlia.
    + apply (bt_three_end (urlsafe fl) (nopad fl) _ _ _ (a / 4) (a mod 4 * 16 + b / 16) (b mod 16 * 4)); auto; apply ch_value; auto; dlia.
  - inversion B as [|? ? A B1]; subst. inversion B1 as [|? ? A1 B2]; subst. inversion B2 as [|? ? A2 B3]; subst. cbn [base64_text]. cbv zeta.
    assert (E : a :: b :: c :: t = be_bytes 3 (((a / 4 * 64 + (a mod 4 * 16 + b / 16)) * 64 + (b mod 16 * 4 + c / 64)) * 64 + c mod 64) ++ t).
    { change (a :: b :: c :: t) with ([a; b; c] ++ t). f_equal. rewrite <- be3 by auto. f_equal. unfold byte_ok in *. dlia. }
    rewrite E. unfold byte_ok in *.
    apply (bt_four (urlsafe fl) (nopad fl) _ _ _ _ (a / 4) (a mod 4 * 16 + b / 16) (b mod 16 * 4 + c / 64) (c mod 64)); try (apply ch_value; auto; dlia).
    apply IH; auto. cbn [length] in L. lia.
Qed.
Lemma takes_len : forall fl text bs, takes fl text bs -> len bs <= len text.
Proof.
  intros fl text bs T. unfold takes in T. induction T; rewrite ?len_app, ?be_bytes_len, ?len_cons, ?len_nil in *; try pose proof (len_nonneg _ t); lia.
Qed.
Lemma fl_length : forall fl text, text <> [] -> exists l, fromBase64Length fl text = Ok l /\ l <= len text.
Proof.
  intros fl text N. assert (LP : 0 < len text) by (destruct text; [congruence|rewrite len_cons; pose proof (len_nonneg _ text); lia]).
  unfold fromBase64Length. destruct (nopad fl); cbn [negb].
  - rewrite andb_false_r. eexists. split; [reflexivity|]. destruct (Z.eqb_spec (len text mod 4) 0); dlia.
  - rewrite andb_true_r. destruct (Z.eqb_spec (len text mod 4) 0) as [E|E]; cbn [negb]; [|eexists; split; [reflexivity|lia]].
    assert (A : forall i, 0 <= i < len text -> exists x, aget text i = Ok x).
    { intros i I. unfold aget. replace ((0 <=? i) && (i <? len text)) with true by (symmetry; apply andb_true_intro; lia). eexists; reflexivity. }
    destruct (A (len text - 1) ltac:(lia)) as (x & ->). destruct (A (len text - 2) ltac:(dlia)) as (y & ->). cbn [bind]. eexists. split; [reflexivity|].
    destruct (x =? 61), (y =? 61); dlia.
Qed.
Lemma text_nul : forall u p n bs, (length bs <= n)%nat -> bytes_ok bs -> no_nul (base64_text u p bs).
Proof.
  assert (C : forall u d, 0 <= d < 64 -> nth (Z.to_nat d) (b64_alphabet u) 0 <> 0).
  { intros u d R. assert (S : forall d, 0 <= d < Z.of_nat 64 -> negb (nth (Z.to_nat d) (b64_alphabet u) 0 =? 0) = true) by (destruct u; apply zrange_sweep; vm_compute; reflexivity).
    specialize (S d ltac:(lia)). apply negb_true_iff, Z.eqb_neq in S. exact S. }
  intros u p. induction n as [|n IH]; intros bs L B; [destruct bs; [constructor|cbn in L; lia]|]. unfold no_nul in *.
  destruct bs as [|a [|b [|c t]]]; [constructor| | |]; cbn [base64_text]; cbv zeta.
  - inversion B as [|? ? A _]; subst. unfold byte_ok in A. apply Forall_app. split; [repeat (constructor; [apply C; dlia|]); constructor|]. destruct p; [|constructor]. repeat (constructor; [vm_compute; discriminate|]). constructor.
  - inversion B as [|? ? A B']; subst. inversion B' as [|? ? A1 _]; subst. unfold byte_ok in *. apply Forall_app. split; [repeat (constructor; [apply C; dlia|]); constructor|]. destruct p; [|constructor]. repeat (constructor; [vm_compute; discriminate|]). constructor.
  - inversion B as [|? ? A B1]; subst. inversion B1 as [|? ? A1 B2]; subst. inversion B2 as [|? ? A2 B3]; subst. unfold byte_ok in *. apply Forall_app. split; [repeat (constructor; [apply C; dlia|]); constructor|].
    apply IH; auto. cbn [length] in L. lia.
Qed.
Lemma lenient : forall fl u p bs out, (u = true -> urlsafe fl = true) -> (p = false -> nopad fl = true) -> bytes_ok bs -> bs <> [] -> len (base64_text u p bs) <= len out ->
  fromBase64 fl (base64_text u p bs) out = Ok (len bs, bs ++ zeros (length out - length bs)).
Proof.
  intros fl u p bs out U P B N L. pose proof (text_takes fl u p U P (length bs) bs (Nat.le_refl _) B) as T.
  assert (NE : base64_text u p bs <> []) by (destruct bs as [|a [|b [|c t]]]; [congruence|discriminate|discriminate|discriminate]).
  destruct (fl_length fl _ NE) as (l & E & LL). apply (proj1 (fl_exact fl _ out l (text_nul u p (length bs) bs (Nat.le_refl _) B) E ltac:(lia)) bs T). pose proof (takes_len _ _ _ T). lia.
Qed.
