(** Halving, small multiples, modular addition, bytes, shifts. *)
From Coq Require Import Lia.
From Verif Require Import Base.Bytes Base.BytesFacts Spec.Codecs Spec.Bignum Model.Bignum Proof.IntVarint Proof.BnCore Proof.BnRed.
Open Scope Z_scope.

Lemma land_full : forall x, 0 <= x < 2^32 -> Z.land x (2^32 - 1) = x.
Proof. intros x H. change (2^32 - 1) with (Z.ones 32). rewrite Z.land_ones by lia. apply Z.mod_small. auto. Qed.

(** Halving. *)
Fixpoint hsum (x p : list Z) (odd : bool) : list Z :=
  match x, p with xj :: x', pj :: p' => (xj + (if odd then pj else 0)) :: hsum x' p' odd | _, _ => [] end.
Lemma hsum_val : forall x p odd, length x = length p -> bn_val (hsum x p odd) = bn_val x + (if odd then bn_val p else 0).
Proof.
  induction x as [|a x IH]; intros [|b p] odd L; try discriminate; cbn [hsum].
  - destruct odd; reflexivity.
  - rewrite !bn_val_cons, IH by (cbn in L; lia). destruct odd; lia.
Qed.
Lemma half_loop_spec : forall x p (odd : bool) tmp, words_ok B x -> words_ok B p -> length x = length p -> 0 <= tmp <= B ->
  let r := half_loop x p (if odd then 2^32 - 1 else 0) tmp in
  bn_val r = tmp + 2^29 * bn_val (hsum x p odd) /\ (exists l t, r = l ++ [t] /\ length l = length x /\ words_ok B l /\ 0 <= t <= B).
Proof.
  induction x as [|a x IH]; intros [|b p] odd tmp Hx Hp L T; try discriminate; cbv zeta; cbn [half_loop hsum].
  - rewrite bn_val_cons, !bn_val_nil. split; [lia|]. exists [], tmp. split; [reflexivity|]. split; [reflexivity|]. split; [constructor|lia].
  - inversion Hx as [|? ? Ha Hx']; inversion Hp as [|? ? Hb Hp']; subst. cbn [length] in L.
    assert (E2 : u32 (a + Z.land b (if odd then 2^32 - 1 else 0)) = a + (if odd then b else 0)).
    { destruct odd; [rewrite land_full by lia|rewrite Z.land_0_r]; apply u32_id; lia. }
    rewrite E2. set (s := a + (if odd then b else 0)). assert (S0 : 0 <= s <= 2^31 - 2) by (unfold s; destruct odd; lia).
    clearbody s. clear E2 Ha Hb. replace (Z.land s 1) with (s mod 2) by (symmetry; apply (Z.land_ones s 1); lia). rewrite (Z.shiftl_mul_pow2 _ 29) by lia.
    pose proof (Z.mod_pos_bound s 2 ltac:(lia)) as S1.
    rewrite (u32_id (s mod 2 * 2^29)) by lia. rewrite (u32_id (tmp + _)) by lia.
    rewrite land_mask, shr30. rewrite (Z.shiftr_div_pow2 s) by lia. change (2^1) with 2.
    set (t := tmp + s mod 2 * 2^29). assert (T0 : 0 <= t <= 2^30 + 2^29) by (unfold t; lia).
    pose proof (div_range 0 2 t ltac:(lia)) as TD. assert (SD : 0 <= s / 2 <= 2^30 - 1) by (split; [apply Z.div_pos; lia|apply Z.div_le_upper_bound; lia]).
    rewrite (u32_id (t / 2^30 + s / 2)) by lia.
    destruct (IH p odd (t / 2^30 + s / 2)) as (V & l & tt & E & L2 & W & R); auto; [lia|].
    split.
    + rewrite !bn_val_cons, V. pose proof (Z.div_mod t (2^30) ltac:(lia)). pose proof (Z.div_mod s 2 ltac:(lia)). unfold t in *. lia.
    + exists (t mod 2^30 :: l), tt. rewrite E. split; [reflexivity|]. split; [cbn [length]; lia|]. split; [constructor; auto; apply Z.mod_pos_bound; lia|auto].
Qed.
Lemma bn_mult_half_spec : forall x m, normalized x -> modulus m -> Z.odd (bn_val m) = true ->
  normalized (bn_mult_half x m) /\ 2 * bn_val (bn_mult_half x m) = bn_val x + (if Z.odd (bn_val x) then bn_val m else 0).
Proof.
  intros x m Nx Hm Om. pose proof (norm_val x Nx) as Vx. destruct Nx as [Lx Hx], Hm as [[Lm Hm] Rm]. unfold bn_mult_half.
  destruct x as [|x0 x]; [discriminate|]. destruct m as [|m0 m]; [discriminate|]. unfold limb. cbn [nth tl].
  inversion Hx as [|? ? H0 Hx']; inversion Hm as [|? ? M0 Hm']; subst. cbn [length] in *.
  assert (OX : Z.odd (bn_val (x0 :: x)) = Z.odd x0) by (rewrite bn_val_cons, Z.odd_add, Z.odd_mul; change (Z.odd (2^30)) with false; cbn [andb]; apply xorb_false_r).
  assert (OM : Z.odd m0 = true) by (rewrite bn_val_cons, Z.odd_add, Z.odd_mul in Om; change (Z.odd (2^30)) with false in Om; cbn [andb] in Om; rewrite xorb_false_r in Om; auto).
  rewrite OX. set (odd := Z.odd x0) in *.
  assert (XO : u32 (- Z.land x0 1) = if odd then 2^32 - 1 else 0).
  { change 1 with (Z.ones 1). rewrite Z.land_ones by lia. change (2^1) with 2. rewrite Zmod_odd. fold odd. destruct odd; reflexivity. }
  rewrite XO.
  assert (E2 : u32 (x0 + Z.land m0 (if odd then 2^32 - 1 else 0)) = x0 + (if odd then m0 else 0)).
  { destruct odd; [rewrite land_full by lia|rewrite Z.land_0_r]; apply u32_id; lia. }
  rewrite E2. rewrite Z.shiftr_div_pow2 by lia. change (2^1) with 2.
  set (s := x0 + (if odd then m0 else 0)).
  assert (SE : s = 2 * (s / 2)).
  { apply Z.div_exact; [lia|]. rewrite Zmod_odd. unfold s. rewrite Z.odd_add. fold odd. destruct odd; [rewrite OM|]; reflexivity. }
  assert (SB : 0 <= s <= 2^31 - 2) by (unfold s; destruct odd; lia).
  destruct (half_loop_spec x m odd (s / 2) Hx' Hm') as (V & l & t & E & L2 & W & R); [lia|split; [apply Z.div_pos; lia|apply Z.div_le_upper_bound; lia]|].
  cbv zeta in V, E. set (r := half_loop x m _ _) in *. rewrite hsum_val in V by lia.
  assert (V2 : 2 * bn_val r = bn_val (x0 :: x) + (if odd then bn_val (m0 :: m) else 0)).
  { rewrite V, !bn_val_cons. clear - SE V. unfold s in SE, V |- *. destruct odd; lia. }
  split; [|exact V2]. split.
  - rewrite E, app_length. cbn [length]. lia.
  - rewrite E. apply Forall_app. split; auto. constructor; auto. split; [lia|].
    assert (VB : bn_val r < 2^270) by (destruct odd; lia). rewrite E, bn_val_app, bn_val_cons, bn_val_nil in VB.
    pose proof (bn_val_upper l W). unfold len in VB. rewrite L2 in VB. replace (length x) with 8%nat in VB by lia. change (Z.of_nat 8) with 8 in VB.
    rewrite <- (Z.pow_mul_r 2 30 8) in VB by lia. change (30 * 8) with 240 in VB. lia.
Qed.

(** Small multiples and modular addition. *)
Lemma map_mul_val : forall k x, bn_val (map (fun v => k * v) x) = k * bn_val x.
Proof. induction x as [|a x IH]; cbn [map]; [rewrite bn_val_nil; lia|]. rewrite !bn_val_cons, IH. lia. Qed.
Lemma bn_mult_k_spec : forall x k m, normalized x -> modulus m -> 0 <= k <= 4 ->
  partly_reduced (bn_mult_k x k m) m /\ bn_val (bn_mult_k x k m) mod bn_val m = (k * bn_val x) mod bn_val m.
Proof.
  intros x k m [Lx Hx] Hm Hk. unfold bn_mult_k.
  assert (E : map (fun v => u32 (k * v)) x = map (fun v => k * v) x).
  { apply map_ext_in. intros v Hv. apply (proj1 (Forall_forall _ _) Hx) in Hv. apply u32_id.
    pose proof (Z.mul_le_mono_nonneg k 4 v (2^30 - 1)). lia. }
  rewrite E. destruct (bn_fast_mod_spec (map (fun v => k * v) x) m) as [P M]; auto.
  - split; [rewrite map_length; auto|]. apply Forall_forall. intros v Hv. apply in_map_iff in Hv as (w & <- & Hw).
    apply (proj1 (Forall_forall _ _) Hx) in Hw. pose proof (Z.mul_le_mono_nonneg k 4 w (2^30 - 1)). lia.
  - rewrite M, map_mul_val. auto.
Qed.
Lemma bn_addmod_spec : forall a b m, normalized a -> normalized b -> modulus m ->
  partly_reduced (bn_addmod a b m) m /\ bn_val (bn_addmod a b m) mod bn_val m = (bn_val a + bn_val b) mod bn_val m.
Proof.
  intros a b m [La Ha] [Lb Hb] Hm. unfold bn_addmod.
  assert (E : map (fun ab => u32 (fst ab + snd ab)) (combine a b) = map (fun ab => fst ab + snd ab) (combine a b)).
  { apply map_ext_in. intros v Hv. apply (proj1 (Forall_forall _ _) (combine_Forall a b Ha Hb)) in Hv. apply u32_id. lia. }
  rewrite E. destruct (bn_fast_mod_spec (map (fun ab => fst ab + snd ab) (combine a b)) m) as [P M]; auto.
  - split; [rewrite zip_len; lia|]. apply Forall_forall. intros v Hv. apply in_map_iff in Hv as (w & <- & Hw).
    apply (proj1 (Forall_forall _ _) (combine_Forall a b Ha Hb)) in Hw. lia.
  - rewrite M. rewrite (zip_val (fun u v => u + v) 1) by (intros; lia). split; auto. f_equal. lia.
Qed.

(** Bytes. *)
Lemma read4_val : forall a b c d, byte_ok a -> byte_ok b -> byte_ok c -> byte_ok d -> read4 a b c d = ((a * 256 + b) * 256 + c) * 256 + d.
Proof.
  intros a b c d Ha Hb Hc Hd. unfold byte_ok in *. unfold read4. rewrite !Z.shiftl_mul_pow2 by lia. rewrite !u32_id by lia.
  rewrite (lor_add 24 a (b * 2^16)) by lia.
  replace (a * 2^24 + b * 2^16) with ((a * 2^8 + b) * 2^16) by lia. rewrite (lor_add 16 _ (c * 2^8)) by lia.
  replace ((a * 2^8 + b) * 2^16 + c * 2^8) with (((a * 2^8 + b) * 2^8 + c) * 2^8) by lia. rewrite (lor_add 8 _ d) by lia. lia.
Qed.
Lemma read_word : forall w temp i, 0 <= i <= 14 -> 0 <= w < 2^32 -> 0 <= temp < 2^(2 * i) ->
  Z.land (Z.lor temp (u32 (Z.shiftl w (2 * i)))) 0x3FFFFFFF = (temp + w * 2^(2 * i)) mod 2^30 /\
  Z.shiftr w (30 - 2 * i) = (temp + w * 2^(2 * i)) / 2^30.
Proof.
  intros w temp i Hi Hw Ht. split.
  - rewrite Z.shiftl_mul_pow2 by lia.
    assert (E : u32 (w * 2^(2 * i)) = (w mod 2^(32 - 2 * i)) * 2^(2 * i)).
    { unfold u32. change (2^32) with (2^(32 - 2 * i + 2 * i)) || replace (2^32) with (2^(32 - 2 * i) * 2^(2 * i)).
      - rewrite Z.mul_mod_distr_r by lia. reflexivity.
      - rewrite <- Z.pow_add_r by lia. f_equal. lia. }
    rewrite E, Z.lor_comm, lor_add by lia. rewrite land_mask.
    replace (2^30) with (2^(30 - 2 * i) * 2^(2 * i)) by (rewrite <- Z.pow_add_r by lia; f_equal; lia).
    replace (2^(32 - 2 * i)) with (4 * 2^(30 - 2 * i)) by (change 4 with (2^2); rewrite <- Z.pow_add_r by lia; f_equal; lia).
    set (P := 2^(30 - 2 * i)). set (Q := 2^(2 * i)) in *. assert (0 < P) by (apply Z.pow_pos_nonneg; lia). assert (0 < Q) by (apply Z.pow_pos_nonneg; lia).
    pose proof (Z.div_mod w (4 * P) ltac:(lia)) as D. rewrite D at 2. set (u := w mod (4 * P)). set (v := w / (4 * P)).
    replace (temp + (4 * P * v + u) * Q) with (u * Q + temp + (4 * v) * (P * Q)) by ring. rewrite Z.mod_add by lia. reflexivity.
  - rewrite Z.shiftr_div_pow2 by lia.
    replace (2^30) with (2^(2 * i) * 2^(30 - 2 * i)) by (rewrite <- Z.pow_add_r by lia; f_equal; lia).
    rewrite <- Z.div_div by (try apply Z.pow_nonzero; try apply Z.pow_pos_nonneg; lia). rewrite Z.div_add, (Z.div_small temp) by lia. reflexivity.
Qed.
Lemma read_words_spec : forall words i temp, words_ok (2^32) words -> 0 <= i -> i + len words <= 15 -> 0 <= temp < 2^(2 * i) ->
  bn_val (read_words words i temp) = temp + 2^(2 * i) * le_val (2^32) words /\
  (exists l t, read_words words i temp = l ++ [t] /\ length l = length words /\ words_ok B l /\ 0 <= t < 2^(2 * (i + len words))).
Proof.
  induction words as [|w words IH]; intros i temp Hw Hi Hl Ht; cbn [read_words le_val].
  - rewrite bn_val_cons, bn_val_nil. split; [lia|]. exists [], temp. rewrite len_nil. split; [reflexivity|]. split; [reflexivity|]. split; [constructor|].
    replace (2 * (i + 0)) with (2 * i) by lia. auto.
  - inversion Hw as [|? ? W1 W2]; subst. rewrite len_cons in *. pose proof (len_nonneg _ words). cbv zeta.
    destruct (read_word w temp i) as [E1 E2]; [lia|auto|auto|]. rewrite E1, E2.
    set (s := temp + w * 2^(2 * i)) in *.
    assert (P4 : 2^(2 * (i + 1)) = 4 * 2^(2 * i)) by (change 4 with (2^2); rewrite <- Z.pow_add_r by lia; f_equal; lia).
    assert (SB : 0 <= s / 2^30 < 2^(2 * (i + 1))).
    { split; [apply Z.div_pos; unfold s; lia|]. apply Z.div_lt_upper_bound; [lia|]. rewrite P4. unfold s.
      pose proof (Z.mul_le_mono_nonneg_r w (2^32 - 1) (2^(2 * i)) ltac:(lia) ltac:(lia)). lia. }
    destruct (IH (i + 1) (s / 2^30)) as (V & l & t & E & L & W & R); auto; [lia|lia|].
    split.
    + rewrite bn_val_cons, V, P4. pose proof (Z.div_mod s (2^30) ltac:(lia)). unfold s in *. lia.
    + exists (s mod 2^30 :: l), t. rewrite E. split; [reflexivity|]. split; [cbn [length]; lia|].
      split; [constructor; auto; apply Z.mod_pos_bound; lia|]. replace (i + (1 + len words)) with (i + 1 + len words) by lia. auto.
Qed.
Lemma words_of : forall f, (forall i, (i < 8)%nat -> 0 <= f i < 2^32) -> words_ok (2^32) (map f (seq 0 8)).
Proof. intros f H. apply Forall_forall. intros d Hd. apply in_map_iff in Hd as (i & <- & Hi). apply in_seq in Hi. apply H. lia. Qed.
Lemma bytes_nth : forall l i, bytes_ok l -> byte_ok (nth i l 0).
Proof.
  intros l i H. destruct (Nat.lt_ge_cases i (length l)); [apply (proj1 (Forall_forall _ _) H); apply nth_In; auto|].
  rewrite nth_overflow by auto. unfold byte_ok. lia.
Qed.
Lemma read_from_words : forall f, (forall i, (i < 8)%nat -> 0 <= f i < 2^32) ->
  let x := read_words (map f (seq 0 8)) 0 0 in
  normalized x /\ bn_val x = le_val (2^32) (map f (seq 0 8)).
Proof.
  intros f H. cbv zeta. destruct (read_words_spec (map f (seq 0 8)) 0 0 (words_of f H)) as (V & l & t & E & L & W & R); [lia|unfold len; rewrite map_length, seq_length; lia|lia|].
  unfold len in R. rewrite map_length, seq_length in L, R. change (Z.of_nat 8) with 8 in R. split; [|rewrite V; lia].
  rewrite E. split; [rewrite app_length, L; reflexivity|]. apply Forall_app. split; auto. constructor; auto. lia.
Qed.
Lemma bn_read_be_spec : forall l, bytes_ok l -> length l = 32%nat -> normalized (bn_read_be l) /\ bn_val (bn_read_be l) = be_val 256 l.
Proof.
  intros l Bl L.
  assert (R : forall i, read_be l i = ((nth i l 0 * 256 + nth (i + 1) l 0) * 256 + nth (i + 2) l 0) * 256 + nth (i + 3) l 0) by (intros i; unfold read_be, read_le; rewrite read4_val by (apply bytes_nth; auto); reflexivity).
  destruct (read_from_words (fun i => read_be l ((7 - i) * 4))) as [N V].
  - intros i Hi. rewrite R. pose proof (bytes_nth l ((7 - i) * 4) Bl). pose proof (bytes_nth l ((7 - i) * 4 + 1) Bl).
    pose proof (bytes_nth l ((7 - i) * 4 + 2) Bl). pose proof (bytes_nth l ((7 - i) * 4 + 3) Bl). unfold byte_ok in *. lia.
  - split; auto. unfold bn_read_be. rewrite V. cbn [seq map]. rewrite !R. cbn [Nat.sub Nat.mul Nat.add].
    do 32 (destruct l as [|? l]; [discriminate|]). destruct l; [|discriminate]. cbn [nth]. cbn [le_val].
    unfold be_val. cbn [be_acc]. ring.
Qed.
Lemma bn_read_le_spec : forall l, bytes_ok l -> length l = 32%nat -> normalized (bn_read_le l) /\ bn_val (bn_read_le l) = le_val 256 l.
Proof.
  intros l Bl L.
  assert (R : forall i, read_le l i = ((nth (i + 3) l 0 * 256 + nth (i + 2) l 0) * 256 + nth (i + 1) l 0) * 256 + nth i l 0) by (intros i; unfold read_be, read_le; rewrite read4_val by (apply bytes_nth; auto); reflexivity).
  destruct (read_from_words (fun i => read_le l (i * 4))) as [N V].
  - intros i Hi. rewrite R. pose proof (bytes_nth l (i * 4) Bl). pose proof (bytes_nth l (i * 4 + 1) Bl).
    pose proof (bytes_nth l (i * 4 + 2) Bl). pose proof (bytes_nth l (i * 4 + 3) Bl). unfold byte_ok in *. lia.
  - split; auto. unfold bn_read_le. rewrite V. cbn [seq map]. rewrite !R. cbn [Nat.sub Nat.mul Nat.add].
    do 32 (destruct l as [|? l]; [discriminate|]). destruct l; [|discriminate]. cbn [nth]. cbn [le_val]. ring.
Qed.
(** Writing. *)
Lemma write_word : forall temp l k, 0 <= k <= 14 -> 0 <= temp -> 0 <= l < B ->
  Z.lor (u32 (Z.shiftl temp (30 - k))) (Z.shiftr l k) = (temp * B + l) / 2^k mod 2^32.
Proof.
  intros temp l k Hk Ht Hl. rewrite Z.shiftl_mul_pow2, Z.shiftr_div_pow2 by lia.
  assert (P : B = 2^(30 - k) * 2^k) by (rewrite <- Z.pow_add_r by lia; f_equal; lia).
  assert (Q : 2^32 = 2^(2 + k) * 2^(30 - k)) by (rewrite <- Z.pow_add_r by lia; f_equal; lia).
  assert (H1 : 0 < 2^k) by (apply Z.pow_pos_nonneg; lia). assert (H2 : 0 < 2^(30 - k)) by (apply Z.pow_pos_nonneg; lia). assert (H3 : 0 < 2^(2 + k)) by (apply Z.pow_pos_nonneg; lia).
  assert (LB : 0 <= l / 2^k < 2^(30 - k)) by (split; [apply Z.div_pos; lia|apply Z.div_lt_upper_bound; lia]).
  rewrite P at 1. replace (temp * (2^(30 - k) * 2^k) + l) with (l + temp * 2^(30 - k) * 2^k) by ring. rewrite Z.div_add by lia.
  unfold u32. rewrite Q, Z.mul_mod_distr_r by lia. rewrite lor_add by lia.
  set (p := 2^(30 - k)) in *. set (q := 2^(2 + k)) in *. set (c := l / 2^k) in *. pose proof (Z.div_mod temp q ltac:(lia)) as D. pose proof (Z.mod_pos_bound temp q ltac:(lia)).
  set (e := temp / q) in *. set (r := temp mod q) in *. clearbody e r.
  replace (c + temp * p) with ((r * p + c) + e * (q * p)) by (rewrite D; ring).
  rewrite Z.mod_add by lia. rewrite Z.mod_small; auto. split; [lia|].
  pose proof (Z.mul_le_mono_nonneg_r r (q - 1) p ltac:(lia) ltac:(lia)). lia.
Qed.
Lemma write_words_val : forall limbs i temp, words_ok B limbs -> 0 <= temp -> 0 <= i -> i + len limbs = 8 ->
  words_ok (2^32) (write_words limbs i temp) /\ length (write_words limbs i temp) = length limbs /\
  be_val (2^32) (write_words limbs i temp) = (temp * B ^ len limbs + be_val B limbs) mod (2^32) ^ len limbs.
Proof.
  induction limbs as [|l limbs IH]; intros i temp Hl Ht Hi Hn; cbn [write_words].
  - rewrite len_nil. split; [constructor|]. split; auto. rewrite Z.mod_1_r. reflexivity.
  - inversion Hl as [|? ? H1 H2]; subst. rewrite len_cons in *. pose proof (len_nonneg _ limbs).
    destruct (IH (i + 1) l) as (W & L & V); auto; [lia..|].
    set (n := len limbs) in *. replace (16 + 2 * i) with (30 - 2 * n) by lia. replace (14 - 2 * i) with (2 * n) by lia.
    rewrite write_word by lia. split; [constructor; auto; apply Z.mod_pos_bound; lia|]. split; [cbn [length]; lia|].
    rewrite !be_val_cons. assert (LL : len (write_words limbs (i + 1) l) = n) by (unfold len; rewrite L; reflexivity). rewrite LL, V. fold n.
    rewrite !Z.pow_add_r by lia. rewrite !Z.pow_1_r.
    assert (R : 0 <= be_val B limbs < B ^ n) by (apply be_val_bound; [lia|exact H2]).
    set (r := be_val B limbs) in *.
    assert (PB : (2^32) ^ n = B ^ n * 2^(2 * n)) by (rewrite <- !Z.pow_mul_r, <- Z.pow_add_r by lia; f_equal; lia).
    assert (D : (temp * B + l) / 2^(2 * n) = (temp * (B ^ n * B) + (l * B ^ n + r)) / (2^32) ^ n).
    { rewrite PB. rewrite <- Z.div_div by (try apply Z.pow_nonzero; try apply Z.pow_pos_nonneg; lia).
      replace (temp * (B ^ n * B) + (l * B ^ n + r)) with (r + (temp * B + l) * B ^ n) by ring. rewrite Z.div_add by lia.
      rewrite (Z.div_small r) by lia. reflexivity. }
    rewrite D. set (X := temp * (B ^ n * B) + (l * B ^ n + r)) in *.
    assert (M : (l * B ^ n + r) mod (2^32) ^ n = X mod (2^32) ^ n).
    { unfold X. destruct (Z.eq_dec n 0) as [E0|E0]; [rewrite E0; change ((2^32)^0) with 1; rewrite !Z.mod_1_r; auto|].
      (* temp * B^(n+1) is a multiple of 2^(32 n) only when 30 (n+1) >= 32 n *)
      replace (B ^ n * B) with (2^(30 - 2 * n) * (2^32) ^ n).
      - replace (temp * (2^(30 - 2 * n) * (2^32) ^ n) + (l * B ^ n + r)) with (l * B ^ n + r + (temp * 2^(30 - 2 * n)) * (2^32) ^ n) by ring.
        rewrite Z.mod_add by (apply Z.pow_nonzero; lia). reflexivity.
      - rewrite PB. assert (BB : 2^(30 - 2 * n) * 2^(2 * n) = B) by (rewrite <- Z.pow_add_r by lia; f_equal; lia).
        transitivity (B ^ n * (2^(30 - 2 * n) * 2^(2 * n))); [ring|rewrite BB; reflexivity]. }
    rewrite M. set (Q := (2^32) ^ n) in *. assert (0 < Q) by (apply Z.pow_pos_nonneg; lia).
    replace (temp * (B * B ^ n) + (l * B ^ n + r)) with X by (unfold X; ring).
    rewrite (Z.mul_comm (2^32) Q). rewrite (Z.rem_mul_r X Q (2^32)) by lia. ring.
Qed.
Lemma write_be_bytes : forall x, 0 <= x < 2^32 -> write_be x = be_bytes 4 x.
Proof.
  intros x H. unfold write_be. rewrite !Z.shiftr_div_pow2 by lia. unfold u8, be_bytes. cbn [le_bytes rev app].
  rewrite !Z.div_div by lia. reflexivity.
Qed.
Lemma concat_words : forall ws, words_ok (2^32) ws -> concat (map write_be ws) = be_bytes (4 * length ws) (be_val (2^32) ws).
Proof.
  intros ws H.
  assert (E : be_val 256 (concat (map write_be ws)) = be_val (2^32) ws /\ bytes_ok (concat (map write_be ws)) /\ length (concat (map write_be ws)) = (4 * length ws)%nat).
  { induction ws as [|w ws IH]; cbn [map concat]; [split; [reflexivity|split; [constructor|reflexivity]]|].
    inversion H as [|? ? H1 H2]; subst. destruct (IH H2) as (A & C & D). rewrite write_be_bytes by auto. split; [|split].
    - rewrite be_val_app, be_val_cons, A, be_val_be_bytes. change (256 ^ Z.of_nat 4) with (2^32). rewrite Z.mod_small by auto.
      unfold len. rewrite D. change 256 with (2^8). rewrite <- !Z.pow_mul_r by lia. do 3 f_equal. lia.
    - apply Forall_app. split; auto. apply be_bytes_ok.
    - rewrite app_length, be_bytes_length, D. cbn [length]. lia. }
  destruct E as (A & C & D). rewrite <- A, <- D. symmetry. apply be_bytes_val. auto.
Qed.
Lemma be_bytes_mod : forall n x, be_bytes n (x mod 256 ^ Z.of_nat n) = be_bytes n x.
Proof.
  intros n x. rewrite <- (be_val_be_bytes n x). rewrite <- (be_bytes_length n x) at 1. apply be_bytes_val. apply be_bytes_ok.
Qed.
Lemma bn_write_be_spec : forall x, normalized x -> bn_write_be x = be_bytes 32 (bn_val x).
Proof.
  intros x [L H]. unfold bn_write_be. set (lo := firstn 8 x). 
  assert (L8 : length lo = 8%nat) by (unfold lo; rewrite firstn_length; lia).
  assert (E : x = lo ++ [limb x 8]).
  { unfold lo, limb. do 9 (destruct x as [|? x]; [discriminate|]). destruct x; [|discriminate]. reflexivity. }
  assert (HL : words_ok B lo /\ 0 <= limb x 8 < B).
  { rewrite E in H. apply Forall_app in H as [H1 H2]. split; auto. apply Forall_inv in H2. exact H2. }
  destruct HL as [HL H8]. destruct (write_words_val (rev lo) 0 (limb x 8)) as (W & LW & V).
  - apply words_rev. auto.
  - lia.
  - lia.
  - unfold len. rewrite rev_length, L8. reflexivity.
  - rewrite concat_words by auto. rewrite LW, rev_length, L8. change (4 * 8)%nat with 32%nat. rewrite V.
    unfold len. rewrite rev_length, L8. change (Z.of_nat 8) with 8. change ((2^32)^8) with (256 ^ Z.of_nat 32). rewrite be_bytes_mod.
    f_equal. rewrite E at 2. rewrite bn_val_app, bn_val_cons, bn_val_nil. unfold len. rewrite L8. change (Z.of_nat 8) with 8.
    rewrite <- le_val_be_val. fold (bn_val lo). lia.
Qed.
Lemma bn_read_uint32_spec : forall n, 0 <= n < 2^32 -> normalized (bn_read_uint32 n) /\ bn_val (bn_read_uint32 n) = n.
Proof.
  intros n H. unfold bn_read_uint32. rewrite land_mask, shr30. pose proof (Z.mod_pos_bound n (2^30) ltac:(lia)). pose proof (div_range 0 4 n ltac:(lia)).
  split.
  - split; [reflexivity|]. repeat (constructor; [lia|]). constructor.
  - rewrite !bn_val_cons, bn_val_nil. pose proof (Z.div_mod n (2^30) ltac:(lia)). lia.
Qed.
Lemma bn_read_uint64_spec : forall n, 0 <= n < 2^64 -> normalized (bn_read_uint64 n) /\ bn_val (bn_read_uint64 n) = n.
Proof.
  intros n H. unfold bn_read_uint64. rewrite !land_mask, !shr30. pose proof (Z.mod_pos_bound n (2^30) ltac:(lia)). pose proof (div_range 0 (2^34) n ltac:(lia)).
  set (q := n / 2^30) in *. pose proof (Z.mod_pos_bound q (2^30) ltac:(lia)). pose proof (div_range 0 16 q ltac:(lia)).
  split.
  - split; [reflexivity|]. repeat (constructor; [lia|]). constructor.
  - rewrite !bn_val_cons, bn_val_nil. pose proof (Z.div_mod n (2^30) ltac:(lia)). pose proof (Z.div_mod q (2^30) ltac:(lia)). unfold q in *. lia.
Qed.

(** Shifts. *)
Lemma lshift_limb : forall a b, 0 <= a < B -> 0 <= b < B ->
  Z.lor (Z.land (u32 (Z.shiftl a 1)) 0x3FFFFFFF) (Z.shiftr (Z.land b 0x20000000) 29) = (2 * a) mod B + b / 2^29.
Proof.
  intros a b Ha Hb. rewrite Z.shiftl_mul_pow2 by lia. rewrite u32_id by lia. rewrite land_mask.
  rewrite Z.shiftr_land. change (Z.shiftr 0x20000000 29) with (Z.ones 1). rewrite Z.land_ones, Z.shiftr_div_pow2 by lia.
  assert (Q : 0 <= b / 2^29 < 2) by (split; [apply Z.div_pos; lia|apply Z.div_lt_upper_bound; lia]).
  rewrite (Z.mod_small (b / 2^29)) by lia. change (2^30) with (2^29 * 2^1). rewrite Z.mul_mod_distr_r by lia. rewrite lor_add by lia.
  rewrite (Z.mul_comm 2 a). change (2^29 * 2^1) with (2^29 * 2). rewrite Z.mul_mod_distr_r by lia. lia.
Qed.
Fixpoint shl_list (l : list Z) (c : Z) : list Z := match l with [] => [] | a :: t => (2 * a) mod B + c :: shl_list t (a / 2^29) end.
Lemma shl_list_digs : forall l c, words_ok B l -> 0 <= c <= 1 -> shl_list l c = digs (map (fun a => 2 * a) l) c.
Proof.
  induction l as [|a l IH]; intros c H Hc; cbn [shl_list map digs]; auto. inversion H as [|? ? H1 H2]; subst.
  assert (Q : 0 <= a / 2^29 < 2) by (split; [apply Z.div_pos; lia|apply Z.div_lt_upper_bound; lia]).
  pose proof (Z.div_mod a (2^29) ltac:(lia)). pose proof (Z.mod_pos_bound a (2^29) ltac:(lia)).
  assert (E1 : (c + 2 * a) / B = a / 2^29) by (symmetry; apply (Z.div_unique_pos _ _ _ (c + 2 * (a mod 2^29))); lia).
  assert (E2 : (2 * a) mod B = 2 * (a mod 2^29)) by (symmetry; apply (Z.mod_unique_pos _ _ (a / 2^29)); lia).
  assert (E3 : (c + 2 * a) mod B = c + 2 * (a mod 2^29)) by (symmetry; apply (Z.mod_unique_pos _ _ (a / 2^29)); lia).
  rewrite E1, E2, E3. f_equal; [lia|]. apply IH; auto. lia.
Qed.
Lemma bn_lshift_spec : forall a, normalized a -> normalized (bn_lshift a) /\ bn_val (bn_lshift a) = (2 * bn_val a) mod 2^270.
Proof.
  intros a [L H]. assert (E : bn_lshift a = shl_list a 0).
  { unfold bn_lshift. do 9 (destruct a as [|? a]; [discriminate|]). destruct a; [|discriminate].
    unfold words_ok in H. repeat match goal with X : Forall _ (_ :: _) |- _ => inversion X; clear X; subst end.
    cbn [seq map Nat.eqb Nat.sub]. unfold limb. cbn [nth]. cbn [shl_list]. rewrite !lshift_limb by auto.
    f_equal. rewrite Z.shiftl_mul_pow2 by lia. rewrite u32_id by lia. rewrite land_mask. change (2^1) with 2. rewrite (Z.mul_comm 2). lia. }
  rewrite E, shl_list_digs by (auto; lia). split.
  - split; [rewrite digs_len, map_length; auto|apply digs_ok].
  - rewrite digs_mod, map_mul_val. unfold len. rewrite map_length, L. reflexivity.
Qed.
Lemma rshift_limb : forall a b, 0 <= a < B -> 0 <= b < B -> Z.lor (Z.shiftr a 1) (u32 (Z.shiftl (Z.land b 1) 29)) = a / 2 + 2^29 * (b mod 2).
Proof.
  intros a b Ha Hb. change 1 with (Z.ones 1) at 2. rewrite Z.land_ones by lia. rewrite Z.shiftl_mul_pow2, Z.shiftr_div_pow2 by lia. change (2^1) with 2.
  pose proof (Z.mod_pos_bound b 2 ltac:(lia)). assert (0 <= a / 2 < 2^29) by (split; [apply Z.div_pos; lia|apply Z.div_lt_upper_bound; lia]).
  rewrite u32_id by lia. rewrite Z.lor_comm, lor_add by lia. lia.
Qed.
Fixpoint shr_list (l : list Z) : list Z := match l with [] => [] | a :: t => a / 2 + 2^29 * (hd 0 t mod 2) :: shr_list t end.
Lemma shr_list_val : forall l, words_ok B l -> words_ok B (shr_list l) /\ length (shr_list l) = length l /\ bn_val l = 2 * bn_val (shr_list l) + hd 0 l mod 2.
Proof.
  induction l as [|a l IH]; intros H; cbn [shr_list]; [split; [constructor|split; reflexivity]|]. inversion H as [|? ? H1 H2]; subst.
  destruct (IH H2) as (A & C & D). pose proof (Z.mod_pos_bound (hd 0 l) 2 ltac:(lia)).
  assert (0 <= a / 2 < 2^29) by (split; [apply Z.div_pos; lia|apply Z.div_lt_upper_bound; lia]).
  split; [constructor; auto; lia|]. split; [cbn [length]; lia|]. rewrite !bn_val_cons, D. cbn [hd]. pose proof (Z.div_mod a 2 ltac:(lia)). lia.
Qed.
Lemma bn_rshift_spec : forall a, normalized a -> normalized (bn_rshift a) /\ bn_val (bn_rshift a) = bn_val a / 2.
Proof.
  intros a [L H]. assert (E : bn_rshift a = shr_list a).
  { unfold bn_rshift. do 9 (destruct a as [|? a]; [discriminate|]). destruct a; [|discriminate].
    unfold words_ok in H. repeat match goal with X : Forall _ (_ :: _) |- _ => inversion X; clear X; subst end.
    cbn [seq map Nat.eqb Nat.add]. unfold limb. cbn [nth]. cbn [shr_list hd]. rewrite !rshift_limb by auto.
    rewrite Z.shiftr_div_pow2 by lia. change (2^1) with 2. change (0 mod 2) with 0. rewrite Z.mul_0_r, Z.add_0_r. reflexivity. }
  rewrite E. destruct (shr_list_val a H) as (A & C & D). split; [split; auto; lia|].
  apply (Z.div_unique_pos _ _ _ (hd 0 a mod 2)); [apply Z.mod_pos_bound; lia|exact D].
Qed.
