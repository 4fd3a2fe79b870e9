(** DER, compact and Schnorr signatures. *)
From Verif Require Import Base.Bytes Base.BytesFacts Model.Conversion Model.Stream Model.Script Model.Signature
  Spec.Codecs Spec.Wire Spec.Objects Spec.Signature Proof.StreamFacts Proof.WitnessFacts Proof.IoProps.
From Coq Require Import Lia.
Open Scope Z_scope.

Definition sbody (x : list Z) : list Z :=
  if int_len x 33 =? 33 then 0 :: x else skipn (Z.to_nat (32 - int_len x 33)) x.

Lemma int_len_spec : forall x n, bytes_ok x -> len x < n -> n < 256 ->
  exists z m, x = zeros z ++ m /\
    ((m = [] /\ int_len x n = n - len x) \/
     (exists b t, m = b :: t /\ 0 < b < 128 /\ int_len x n = n - Z.of_nat z - 1) \/
     (exists b t, m = b :: t /\ 128 <= b /\ int_len x n = n - Z.of_nat z)).
Proof.
  induction x as [|b t IH]; intros n B L N.
  - exists 0%nat, []. split; auto. left. rewrite len_nil. cbn [int_len]. split; auto. lia.
  - pose proof (Forall_inv B) as B0. pose proof (Forall_inv_tail B) as B1. cbv beta in B0. unfold byte_ok in B0.
    rewrite len_cons in L. pose proof (len_nonneg _ t).
    cbn [int_len]. destruct (Z.ltb_spec 0 b).
    + exists 0%nat, (b :: t). split; auto. right. destruct (Z.ltb_spec b 128).
      * left. exists b, t. rewrite u8_id by lia. repeat split; lia.
      * right. exists b, t. repeat split; lia.
    + assert (b = 0) by lia. subst b. rewrite u8_id by lia.
      destruct (IH (n - 1) B1) as (z & m & E & D); try lia.
      exists (S z), m. split; [cbn [zeros repeat app]; f_equal; exact E|].
      rewrite len_cons. destruct D as [[E1 E2]|[(c & u & E1 & E2 & E3)|(c & u & E1 & E2 & E3)]].
      * left. split; auto; lia.
      * right; left. exists c, u. repeat split; auto; lia.
      * right; right. exists c, u. repeat split; auto; lia.
Qed.

Lemma sbody_spec : forall x, length x = 32%nat -> bytes_ok x ->
  1 <= int_len x 33 <= 33 /\ len (sbody x) = int_len x 33 /\ der_integer (be_val 256 x) (sbody x) /\
  (int_len x 33 < 33 -> x = zeros (32 - Z.to_nat (int_len x 33)) ++ sbody x).
Proof.
  intros x L B. assert (LX : len x = 32) by (unfold len; lia).
  destruct (int_len_spec x 33 B) as (z & m & E & D); try lia.
  assert (LZ : Z.of_nat z + len m = 32) by (rewrite E in LX; rewrite len_app, len_zeros in LX; lia).
  assert (BM : bytes_ok m) by (rewrite E in B; apply bytes_ok_app in B; tauto).
  assert (V : be_val 256 x = be_val 256 m) by (rewrite E; apply be_val_zeros).
  unfold sbody. destruct D as [[E1 E2]|[(b & t & E1 & E2 & E3)|(b & t & E1 & E2 & E3)]].
  - rewrite E2, LX. change (33 - 32 =? 33) with false. cbv iota. change (Z.to_nat (32 - (33 - 32))) with 31%nat.
    change (32 - Z.to_nat (33 - 32))%nat with 31%nat.
    assert (XZ : x = zeros 32). { subst m. rewrite app_nil_r in E. rewrite len_nil in LZ. replace 32%nat with z by lia. auto. }
    rewrite XZ. split; [lia|]. split; [reflexivity|]. split; [|reflexivity].
    split; [|split; [|split; [|split]]]; try reflexivity; try discriminate.
    apply bytes_ok_bool. reflexivity.
  - rewrite E3. subst m. rewrite len_cons in LZ. pose proof (len_nonneg _ t).
    destruct (Z.eqb_spec (33 - Z.of_nat z - 1) 33); [lia|].
    replace (Z.to_nat (32 - (33 - Z.of_nat z - 1))) with z by lia.
    replace (32 - Z.to_nat (33 - Z.of_nat z - 1))%nat with z by lia.
    assert (SK : skipn z x = b :: t) by (rewrite E; apply skipn_app_len; unfold zeros; rewrite repeat_length; auto).
    rewrite SK. split; [lia|]. split; [rewrite len_cons; lia|]. split.
    + split; [auto|]. split; [discriminate|]. split; [cbn [hd]; lia|]. split; [auto|]. destruct b; auto; lia.
    + intros _. exact E.
  - rewrite E3. subst m. rewrite len_cons in LZ. pose proof (len_nonneg _ t).
    pose proof (Forall_inv BM) as B0. cbv beta in B0. unfold byte_ok in B0.
    destruct (Z.eqb_spec (33 - Z.of_nat z) 33).
    + assert (z = 0%nat) by lia. subst z. cbn [zeros repeat app] in E. subst x.
      split; [lia|]. split; [rewrite len_cons; lia|]. split; [|lia].
      split; [apply Forall_cons; [unfold byte_ok; lia|auto]|]. split; [discriminate|]. split; [cbn [hd]; lia|].
      split; [|auto]. rewrite be_val_cons. lia.
    + destruct z as [|z]; [lia|]. replace (Z.to_nat (32 - (33 - Z.of_nat (S z)))) with z by lia.
      replace (32 - Z.to_nat (33 - Z.of_nat (S z)))%nat with z by lia.
      assert (ES : x = zeros z ++ 0 :: b :: t).
      { rewrite E. change (zeros (S z)) with (repeat 0 (S z)). unfold zeros. rewrite <- Nat.add_1_r, repeat_app. rewrite <- app_assoc. reflexivity. }
      assert (SK : skipn z x = 0 :: b :: t) by (rewrite ES; apply skipn_app_len; unfold zeros; rewrite repeat_length; auto).
      rewrite SK. split; [lia|]. split; [rewrite !len_cons; lia|]. split.
      * split; [apply Forall_cons; [unfold byte_ok; lia|auto]|]. split; [discriminate|]. split; [cbn [hd]; lia|].
        split; [|auto]. rewrite be_val_cons. lia.
      * intros _. exact ES.
Qed.

(** DER integers are unique. *)
Lemma nz_unique : forall a b, bytes_ok a -> bytes_ok b -> hd 1 a <> 0 -> hd 1 b <> 0 ->
  be_val 256 a = be_val 256 b -> a = b.
Proof.
  assert (LE : forall a b, bytes_ok a -> bytes_ok b -> hd 1 a <> 0 -> be_val 256 a = be_val 256 b -> len a <= len b).
  { intros a b A B NZ E. destruct a as [|x a]; [rewrite len_nil; apply len_nonneg|].
    cbn [hd] in NZ. pose proof (Forall_inv A) as A0. cbv beta in A0. unfold byte_ok in A0.
    pose proof (Forall_inv_tail A) as A1.
    assert (P1 : 256 ^ len a <= be_val 256 (x :: a)) by (apply be_val_lower; try lia; apply bytes_digits; auto).
    assert (P2 : 0 <= be_val 256 b < 256 ^ len b) by (apply be_val_bound; try lia; apply bytes_digits; auto).
    rewrite len_cons. pose proof (len_nonneg _ a). pose proof (len_nonneg _ b).
    assert (256 ^ len a < 256 ^ len b) by lia. apply Z.pow_lt_mono_r_iff in H1; lia. }
  intros a b A B NA NB E. apply (be_val_inj 256); try lia; try (apply bytes_digits; auto); auto.
  assert (len a <= len b) by (apply LE; auto). assert (len b <= len a) by (apply LE; auto). unfold len in *; lia.
Qed.
Lemma be_pos : forall a, bytes_ok a -> a <> [] -> hd 1 a <> 0 -> 0 < be_val 256 a.
Proof.
  intros [|x a] B N H; [congruence|]. cbn [hd] in H. pose proof (Forall_inv B) as B0. cbv beta in B0. unfold byte_ok in B0.
  assert (256 ^ len a <= be_val 256 (x :: a)).
  { apply be_val_lower; try lia. apply bytes_digits. exact (Forall_inv_tail B). }
  pose proof (len_nonneg _ a). assert (0 < 256 ^ len a) by (apply Z.pow_pos_nonneg; lia). lia.
Qed.
Lemma der_integer_unique : forall x a b, der_integer x a -> der_integer x b -> a = b.
Proof.
  intros x a b (BA & NA & HA & VA & MA) (BB & NB & HB & VB & MB).
  destruct a as [|a0 a]; [congruence|]. destruct b as [|b0 b]; [congruence|]. cbn [hd] in HA, HB.
  pose proof (Forall_inv_tail BA) as BA1. pose proof (Forall_inv_tail BB) as BB1.
  destruct (Z.eq_dec a0 0) as [EA|EA], (Z.eq_dec b0 0) as [EB|EB].
  - subst a0 b0. f_equal. apply nz_unique; auto.
    + destruct a; cbv iota beta in MA; cbn [hd]; lia.
    + destruct b; cbv iota beta in MB; cbn [hd]; lia.
    + rewrite be_val_cons in VA, VB. lia.
  - exfalso. subst a0. rewrite be_val_cons in VA. assert (a = b0 :: b).
    { apply nz_unique; auto. destruct a; cbv iota beta in MA; cbn [hd]; lia. lia. }
    subst a. lia.
  - exfalso. subst b0. rewrite be_val_cons in VB. assert (b = a0 :: a).
    { apply nz_unique; auto. destruct b; cbv iota beta in MB; cbn [hd]; lia. lia. }
    subst b. lia.
  - apply nz_unique; auto. lia.
Qed.

Lemma be_bytes_spec : forall n x, length (be_bytes n x) = n /\ bytes_ok (be_bytes n x) /\
  (0 <= x < 256 ^ Z.of_nat n -> be_val 256 (be_bytes n x) = x).
Proof.
  unfold be_bytes. induction n as [|n IH]; intros x; cbn [le_bytes rev].
  - split; auto. split; [constructor|]. change (256 ^ Z.of_nat 0) with 1. intro. cbn. lia.
  - destruct (IH (x / 256)) as (A & B & C). pose proof (Z.mod_pos_bound x 256 ltac:(lia)).
    split; [rewrite app_length; cbn; lia|]. split.
    + apply bytes_ok_app. split; auto. apply Forall_cons; [unfold byte_ok; lia|constructor].
    + intros R. rewrite be_val_snoc. rewrite Nat2Z.inj_succ, Z.pow_succ_r in R by lia.
      rewrite C. pose proof (Z.div_mod x 256). lia.
      split; [apply Z.div_pos; lia|]. apply Z.div_lt_upper_bound; lia.
Qed.
(** Every DER integer below 2^256 is the body of a 32-byte array. *)
Lemma der_integer_array : forall x a, der_integer x a -> 0 <= x < 2^256 ->
  exists r, length r = 32%nat /\ bytes_ok r /\ be_val 256 r = x /\ a = sbody r.
Proof.
  intros x a H R. destruct (be_bytes_spec 32 x) as (A & B & C).
  exists (be_bytes 32 x). split; auto. split; auto. rewrite C by exact R. split; auto.
  destruct (sbody_spec (be_bytes 32 x) A B) as (_ & _ & D & _). rewrite C in D by exact R.
  apply (der_integer_unique x); auto.
Qed.

(** ** Writing *)
Definition der_of (r s : list Z) : list Z :=
  [48; 4 + len (sbody r) + len (sbody s); 2; len (sbody r)] ++ sbody r ++ [2; len (sbody s)] ++ sbody s.
Lemma der_of_len : forall r s, len (der_of r s) = 6 + len (sbody r) + len (sbody s).
Proof. intros. unfold der_of. rewrite !len_app, !len_cons, !len_nil. lia. Qed.

Lemma write_int : forall x pre n, length x = 32%nat -> bytes_ok x -> len (sbody x) <= Z.of_nat n ->
  (if int_len x 33 =? 33 then write_at (pre ++ zeros n) (len pre + 1) x
   else write_at (pre ++ zeros n) (len pre) (firstn (Z.to_nat (int_len x 33)) (skipn (Z.to_nat (32 - int_len x 33)) x)))
  = Ok ((pre ++ sbody x) ++ zeros (n - length (sbody x))).
Proof.
  intros x pre n L B N. destruct (sbody_spec x L B) as (R & LB & _ & _).
  unfold sbody in *. destruct (Z.eqb_spec (int_len x 33) 33) as [E|E].
  - rewrite len_cons in N. cbn [length]. rewrite L. unfold len in N.
    replace (zeros n) with ([0] ++ zeros 32 ++ zeros (n - 33)).
    2:{ unfold zeros. rewrite <- repeat_app. change ([0] ++ repeat 0 (32 + (n - 33))) with (repeat 0 (S (32 + (n - 33)))).
        f_equal. lia. }
    rewrite app_assoc. replace (len pre + 1) with (len (pre ++ [0])) by (rewrite len_app; reflexivity).
    rewrite write_at_app by (unfold zeros; rewrite repeat_length; auto).
    f_equal. rewrite <- !app_assoc. reflexivity.
  - assert (LS : length (skipn (Z.to_nat (32 - int_len x 33)) x) = Z.to_nat (int_len x 33)) by (rewrite skipn_length; lia).
    rewrite (firstn_all2 (n := Z.to_nat (int_len x 33))) by lia. rewrite LS.
    replace (zeros n) with (zeros (Z.to_nat (int_len x 33)) ++ zeros (n - Z.to_nat (int_len x 33))).
    2:{ unfold zeros. rewrite <- repeat_app. f_equal. lia. }
    rewrite write_at_app by (unfold zeros; rewrite repeat_length; auto).
    f_equal. rewrite <- app_assoc. auto.
Qed.
Lemma write_head : forall pre n l, (length l <= n)%nat ->
  write_at (pre ++ zeros n) (len pre) l = Ok ((pre ++ l) ++ zeros (n - length l)).
Proof.
  intros. replace (zeros n) with (zeros (length l) ++ zeros (n - length l)).
  2:{ unfold zeros. rewrite <- repeat_app. f_equal. lia. }
  rewrite write_at_app by (unfold zeros; rewrite repeat_length; auto). rewrite <- app_assoc. auto.
Qed.

Lemma sig_der_ok : forall g n, length (sg_r g) = 32%nat -> bytes_ok (sg_r g) -> length (sg_s g) = 32%nat -> bytes_ok (sg_s g) ->
  let d := der_of (sg_r g) (sg_s g) in
  (length d <= n)%nat -> sig_der g n = Ok (len d, d ++ zeros (n - length d)).
Proof.
  intros g n L1 B1 L2 B2 d N. unfold sig_der, sig_rlen, sig_slen.
  destruct (sbody_spec _ L1 B1) as (R1 & LB1 & _ & _). destruct (sbody_spec _ L2 B2) as (R2 & LB2 & _ & _).
  pose proof (der_of_len (sg_r g) (sg_s g)) as DL. fold d in DL.
  rewrite <- LB1, <- LB2 in *. set (a := sbody (sg_r g)) in *. set (b := sbody (sg_s g)) in *.
  assert (NN : 6 + len a + len b <= Z.of_nat n) by (unfold len in *; lia).
  rewrite u8_id by lia.
  pose proof (write_head [] n [48; 4 + len a + 2 + len b - 2; 2; len a]) as W0.
  rewrite len_nil in W0. cbn [app length] in W0. rewrite W0 by lia. clear W0. cbn [bind].
  set (h := [48; 4 + len a + 2 + len b - 2; 2; len a]).
  change (48 :: 4 + len a + 2 + len b - 2 :: 2 :: len a :: zeros (n - 4)) with (h ++ zeros (n - 4)).
  assert (HH : len h = 4) by reflexivity.
  pose proof (write_int (sg_r g) h (n - 4) L1 B1) as W1. fold a in W1. rewrite <- LB1, HH in W1.
  change (4 + 1) with 5 in W1. rewrite W1 by lia. clear W1. cbn [bind].
  assert (HA : len (h ++ a) = 4 + len a) by (rewrite len_app; lia).
  rewrite <- HA. assert (LA : length a = Z.to_nat (len a)) by (unfold len; lia).
  assert (LBn : length b = Z.to_nat (len b)) by (unfold len; lia).
  rewrite write_head by (cbn [length]; lia). cbn [bind].
  assert (HAB : len ((h ++ a) ++ [2; len b]) = len (h ++ a) + 2) by (rewrite len_app; reflexivity).
  pose proof (write_int (sg_s g) ((h ++ a) ++ [2; len b]) (n - 4 - length a - length [2; len b]) L2 B2) as W2.
  fold b in W2. rewrite <- LB2, HAB in W2. replace (len (h ++ a) + 2 + 1) with (len (h ++ a) + 3) in W2 by lia.
  rewrite W2 by (cbn [length]; lia). clear W2. cbn [bind]. rewrite HA.
  unfold d, der_of. fold a b.
  f_equal. f_equal.
  - rewrite !len_app, !len_cons, !len_nil. lia.
  - unfold h. replace (4 + len a + 2 + len b - 2) with (4 + len a + len b) by lia.
    rewrite <- !app_assoc. do 4 f_equal. unfold zeros. f_equal. rewrite !app_length. cbn [length]. lia.
Qed.

(** ** Parsing *)
Lemma gate_take : forall cond limit f k g pos c t, cond = true -> pos < limit -> snd (f c g) = true ->
  sig_gate cond limit f k g pos (c :: t) = k (fst (f c g)) (pos + 1) t.
Proof.
  intros. unfold sig_gate. subst cond. destruct (Z.ltb_spec pos limit); [|lia]. cbn [andb].
  destruct (f c g); cbn in *; subst; auto.
Qed.
Lemma gate_skip : forall cond limit f k g pos st, cond = false \/ limit <= pos ->
  sig_gate cond limit f k g pos st = k g pos st.
Proof.
  intros. unfold sig_gate. destruct st; auto. destruct cond; auto. destruct (Z.ltb_spec pos limit); auto. destruct H; [discriminate|lia].
Qed.
Lemma gate_nil : forall cond limit f k g pos, sig_gate cond limit f k g pos [] = k g pos [].
Proof. reflexivity. Qed.

(** Reading the body of an array back. *)
Lemma read_body : forall x off rest f, length x = 32%nat -> bytes_ok x ->
  (forall a p c, f a p c = aset a (p - off + 32 - int_len x 33) c) ->
  int_len x 33 < 33 ->
  read_loop_o (off + int_len x 33) off f (zeros 32) (sbody x ++ rest) = Ok (x, off + int_len x 33, rest).
Proof.
  intros x off rest f L B F E. destruct (sbody_spec x L B) as (R & LB & _ & X). specialize (X E).
  replace (zeros 32) with (zeros (32 - Z.to_nat (int_len x 33)) ++ zeros (Z.to_nat (int_len x 33))).
  2:{ unfold zeros. rewrite <- repeat_app. f_equal. lia. }
  rewrite (fill_loop (off - (32 - int_len x 33)) _ f).
  - assert (LS : length (sbody x) = Z.to_nat (int_len x 33)) by (unfold len in LB; lia).
    replace (Nat.min _ _) with (length (sbody x)).
    2:{ rewrite app_length. lia. }
    rewrite firstn_app_len, skipn_app_len by auto. rewrite skipn_all2 by (unfold zeros; rewrite repeat_length; lia).
    rewrite app_nil_r, <- X. do 3 f_equal. lia.
  - intros. rewrite F. f_equal. lia.
  - rewrite len_zeros. lia.
  - rewrite !len_zeros. lia.
Qed.
Lemma read_body33 : forall x off rest f, length x = 32%nat ->
  (forall a p c, f a p c = aset a (p - off - 1) c) ->
  read_loop_o (off + 33) (off + 1) f (zeros 32) (x ++ rest) = Ok (x, off + 33, rest).
Proof.
  intros x off rest f L F. change (zeros 32) with ([] ++ zeros 32).
  rewrite (fill_loop (off + 1) _ f).
  - replace (Nat.min _ _) with (length x).
    2:{ rewrite app_length. lia. }
    rewrite firstn_app_len, skipn_app_len by auto. rewrite skipn_all2 by (unfold zeros; rewrite repeat_length; lia).
    rewrite app_nil_r. cbn [app]. do 3 f_equal. lia.
  - intros. rewrite F. f_equal. lia.
  - rewrite len_nil. lia.
  - rewrite len_nil, len_zeros. lia.
Qed.
(** The zero byte and the loop together. *)
Lemma read_int : forall x off rest f k g t, length x = 32%nat -> bytes_ok x -> t = int_len x 33 ->
  (forall a p c, f a p c = aset a (p - off + 32 - t) c) ->
  sig_gate (t =? 33) (off + 1) (fun c g => (g, c =? 0)) (fun g pos st =>
    let! r := read_loop_o (off + t) pos f (zeros 32) st in k r g) g off (sbody x ++ rest)
  = k (x, off + t, rest) g.
Proof.
  intros x off rest f k g t L B -> F. destruct (Z.eqb_spec (int_len x 33) 33) as [E|E].
  - unfold sbody. rewrite E. change (33 =? 33) with true. cbv iota. cbn [app]. rewrite gate_take by (auto; lia).
    cbn [fst]. rewrite read_body33.
    + reflexivity.
    + auto.
    + intros. rewrite F, E. f_equal. lia.
  - rewrite gate_skip by auto. destruct (sbody_spec x L B) as (R & _).
    rewrite read_body by (auto; lia). reflexivity.
Qed.

Lemma sig_parse_der : forall g0 r s t rest, sg_status g0 = DONE ->
  length r = 32%nat -> bytes_ok r -> length s = 32%nat -> bytes_ok s -> 0 <= t <= 70 ->
  sig_parse g0 (with_total (der_of r s) t ++ rest) =
    Ok (mkSig r s t (len (sbody r)) (len (sbody s)) (sg_index g0) DONE (len (der_of r s)), len (der_of r s), rest).
Proof.
  intros g0 r s t rest ST L1 B1 L2 B2 T. unfold sig_parse. rewrite ST.
  destruct (sbody_spec r L1 B1) as (R1 & LB1 & _ & _). destruct (sbody_spec s L2 B2) as (R2 & LB2 & _ & _).
  unfold with_total, der_of. cbn [app hd skipn]. rewrite <- !app_assoc. cbn [app]. rewrite LB1, LB2.
  unfold sig_parse_body. cbn [sg_parsed].
  rewrite gate_take by (auto; lia). cbn [fst].
  rewrite gate_take; [|auto|lia|cbn [snd]; destruct (Z.ltb_spec 70 t); auto; lia]. cbn [fst].
  rewrite gate_take by (auto; lia). cbn [fst].
  rewrite gate_take; [|auto|lia|cbn [snd]; destruct (Z.ltb_spec 33 (int_len r 33)); auto; lia]. cbn [fst].
  change (0 + 1 + 1 + 1 + 1) with 4. unfold set_t0, set_t1. cbn [sg_r sg_s sg_t0 sg_t1 sg_t2 sg_index sg_status sg_parsed].
  transitivity (
   sig_gate (int_len r 33 =? 33) (4 + 1) (fun c g => (g, c =? 0)) (fun g pos st =>
    let! q := read_loop_o (4 + int_len r 33) pos (fun a p c => aset a (p - 4 + 32 - int_len r 33) c) (zeros 32) st in
    (fun q g => let '(r1, pos1, st1) := q in
      if negb (sig_rlen (set_r g r1) =? sg_t1 (set_r g r1)) then Ok (sig_fail (set_r g r1), pos1 - sg_parsed g, st1)
      else sig_parse_s (set_r g r1) pos1 st1) q g)
     (mkSig (zeros 32) (zeros 32) t (int_len r 33) 0 (sg_index g0) INCOMPLETE 0) 4
     (sbody r ++ 2 :: int_len s 33 :: sbody s ++ rest)).
  { unfold sig_gate. destruct (sbody r ++ 2 :: int_len s 33 :: sbody s ++ rest) as [|c u]; [reflexivity|].
    destruct (_ && _); [|reflexivity]. destruct (c =? 0); reflexivity. }
  rewrite read_int; auto. cbn beta iota.
  unfold sig_rlen, set_r. cbn [sg_r sg_s sg_t0 sg_t1 sg_t2 sg_index sg_status sg_parsed].
  rewrite Z.eqb_refl. cbn [negb].
  unfold sig_parse_s. cbn [sg_r sg_s sg_t0 sg_t1 sg_t2 sg_index sg_status sg_parsed].
  rewrite gate_take by (auto; lia). cbn [fst].
  rewrite gate_take; [|auto|lia|cbn [snd]; destruct (Z.ltb_spec 33 (int_len s 33)); auto; lia]. cbn [fst].
  unfold set_t2. cbn [sg_r sg_s sg_t0 sg_t1 sg_t2 sg_index sg_status sg_parsed].
  set (off := 4 + int_len r 33 + 1 + 1).
  transitivity (
   sig_gate (int_len s 33 =? 33) (off + 1) (fun c g => (g, c =? 0)) (fun g pos st =>
    let! q := read_loop_o (off + int_len s 33) pos (fun a p c => aset a (p - off + 32 - int_len s 33) c) (zeros 32) st in
    (fun q g => let '(s1, pos1, st1) := q in
      if negb (sig_slen (set_s g s1) =? sg_t2 (set_s g s1)) then Ok (sig_fail (set_s g s1), pos1 - sg_parsed g, st1)
    else Ok (mkSig (sg_r g) s1 (sg_t0 g) (sg_t1 g) (sg_t2 g) (sg_index g)
               (if pos1 =? off + int_len s 33 then DONE else INCOMPLETE) pos1,
             pos1 - sg_parsed g, st1)) q g)
     (mkSig r (zeros 32) t (int_len r 33) (int_len s 33) (sg_index g0) INCOMPLETE 0) off
     (sbody s ++ rest)).
  { assert (LL : forall st pos, read_loop_o (4 + int_len r 33 + 2 + int_len s 33) pos
       (fun a p c => aset a (p - 4 - int_len r 33 - 2 - int_len s 33 + 32) c) (zeros 32) st =
       read_loop_o (off + int_len s 33) pos (fun a p c => aset a (p - off + 32 - int_len s 33) c) (zeros 32) st).
    { intros st pos. replace (4 + int_len r 33 + 2 + int_len s 33) with (off + int_len s 33) by (unfold off; lia).
      generalize (zeros 32). revert pos. induction st as [|c st IH]; intros pos z; cbn [read_loop_o]; auto.
      destruct (pos <? off + int_len s 33); auto.
      replace (pos - 4 - int_len r 33 - 2 - int_len s 33 + 32) with (pos - off + 32 - int_len s 33) by (unfold off; lia).
      destruct (aset z _ c); cbn [bind]; auto. }
    replace (4 + int_len r 33 + 3) with (off + 1) by (unfold off; lia).
    assert (KK : forall g pos st, sg_t1 g = int_len r 33 -> sg_t2 g = int_len s 33 -> sg_s g = zeros 32 ->
      (let! q := read_loop_o (4 + int_len r 33 + 2 + sg_t2 g) pos
         (fun a p c => aset a (p - 4 - sg_t1 g - 2 - sg_t2 g + 32) c) (sg_s g) st in
       let '(s1, pos1, st1) := q in
       let g1 := set_s g s1 in
       if negb (sig_slen g1 =? sg_t2 g1) then Ok (sig_fail g1, pos1 - sg_parsed g, st1)
       else Ok (mkSig (sg_r g1) (sg_s g1) (sg_t0 g1) (sg_t1 g1) (sg_t2 g1) (sg_index g1)
               (if pos1 =? 4 + int_len r 33 + 2 + sg_t2 g then DONE else INCOMPLETE) pos1, pos1 - sg_parsed g, st1)) =
      (let! q := read_loop_o (off + int_len s 33) pos (fun a p c => aset a (p - off + 32 - int_len s 33) c) (zeros 32) st in
       let '(s1, pos1, st1) := q in
       if negb (sig_slen (set_s g s1) =? sg_t2 (set_s g s1)) then Ok (sig_fail (set_s g s1), pos1 - sg_parsed g, st1)
       else Ok (mkSig (sg_r g) s1 (sg_t0 g) (sg_t1 g) (sg_t2 g) (sg_index g)
               (if pos1 =? off + int_len s 33 then DONE else INCOMPLETE) pos1, pos1 - sg_parsed g, st1))).
    { intros g pos st E1 E2 E3. rewrite E1, E2, E3, LL.
      destruct (read_loop_o _ _ _ _ _) as [[[s1 pos1] st1]|]; cbn [bind]; auto.
      cbv zeta. replace (4 + int_len r 33 + 2 + int_len s 33) with (off + int_len s 33) by (unfold off; lia).
      destruct (negb _); auto. unfold set_s; cbn [sg_r sg_s sg_t0 sg_t1 sg_t2 sg_index]. rewrite E1, E2. reflexivity. }
    unfold sig_gate. destruct (sbody s ++ rest) as [|c u].
    - apply KK; auto.
    - destruct (_ && _); [|apply KK; auto]. destruct (c =? 0); [apply KK; auto|reflexivity]. }
  rewrite read_int; auto. cbn beta iota.
  unfold sig_slen, set_s. cbn [sg_r sg_s sg_t0 sg_t1 sg_t2 sg_index sg_status sg_parsed].
  rewrite !Z.eqb_refl. cbn [negb].
  assert (DL : len (der_of r s) = off + int_len s 33) by (rewrite der_of_len; unfold off; lia).
  unfold der_of in DL. cbn [app] in DL. rewrite LB1, LB2 in DL. rewrite DL. rewrite Z.sub_0_r. reflexivity.
Qed.

(** ** What a successful parse has read *)
Lemma gate_inv : forall cond limit f k g pos st g1 n rest,
  sig_gate cond limit f k g pos st = Ok (g1, n, rest) -> sg_status g1 = DONE ->
  (exists c t, st = c :: t /\ cond = true /\ pos < limit /\ snd (f c g) = true /\ k (fst (f c g)) (pos + 1) t = Ok (g1, n, rest)) \/
  ((st = [] \/ cond = false \/ limit <= pos) /\ k g pos st = Ok (g1, n, rest)).
Proof.
  intros cond limit f k g pos st g1 n rest H D. unfold sig_gate in H. destruct st as [|c t]; [right; auto|].
  destruct cond; cbn [andb] in H; [|right; auto].
  destruct (Z.ltb_spec pos limit); [|right; auto].
  destruct (f c g) as [h ok] eqn:F. destruct ok.
  - left. exists c, t. rewrite F. auto.
  - injection H as <- _ _. cbn in D. discriminate.
Qed.

Lemma fill_complete : forall off limit pos f st x pos1 rest,
  (forall a p c, f a p c = aset a (p - off) c) -> off <= pos -> pos <= limit -> limit = off + 32 ->
  bytes_ok st ->
  read_loop_o limit pos f (zeros 32) st = Ok (x, pos1, rest) ->
  length x = 32%nat /\ bytes_ok x /\ pos1 <= limit /\ (rest <> [] -> pos1 = limit) /\
  (pos1 = limit -> exists A, x = zeros (Z.to_nat (pos - off)) ++ A /\ st = A ++ rest /\ len A = limit - pos).
Proof.
  intros off limit pos f st x pos1 rest F P1 P2 -> B H.
  assert (Z32 : zeros 32 = zeros (Z.to_nat (pos - off)) ++ zeros (Z.to_nat (off + 32 - pos))).
  { unfold zeros. rewrite <- repeat_app. f_equal. lia. }
  rewrite Z32 in H. rewrite (fill_loop off _ f F) in H by (rewrite ?len_zeros; lia).
  set (k := Nat.min (length st) (Z.to_nat (off + 32 - pos))) in *.
  assert (HX : x = zeros (Z.to_nat (pos - off)) ++ firstn k st ++ skipn k (zeros (Z.to_nat (off + 32 - pos)))) by congruence.
  assert (HP : pos1 = pos + Z.of_nat k) by congruence. assert (HR : rest = skipn k st) by congruence. clear H.
  assert (LX : length x = 32%nat).
  { subst x. unfold zeros. rewrite !app_length, repeat_length, firstn_length, skipn_length, repeat_length. unfold k. lia. }
  split; auto. split.
  { subst x. apply bytes_ok_app. split; [apply bytes_ok_zeros|]. apply bytes_ok_app. split; [apply bytes_ok_firstn; auto|].
    apply bytes_ok_skipn, bytes_ok_zeros. }
  split; [unfold k in *; lia|]. split.
  { intro N. subst rest. destruct (Nat.le_gt_cases (length st) k); [rewrite skipn_all2 in N by auto; congruence|].
    unfold k in *. lia. }
  intro E. exists (firstn k st). split.
  - subst x. f_equal. rewrite (skipn_all2 (n := k)) by (unfold zeros; rewrite repeat_length; lia). apply app_nil_r.
  - split; [subst rest; symmetry; apply firstn_skipn|]. unfold len. rewrite firstn_length. unfold k in *. lia.
Qed.

Lemma sbody_of : forall x t A, length x = 32%nat -> bytes_ok x -> int_len x 33 = t -> 0 <= t < 33 ->
  x = zeros (Z.to_nat (32 - t)) ++ A -> A = sbody x.
Proof.
  intros x t A L B E T X. unfold sbody. rewrite E. destruct (Z.eqb_spec t 33); [lia|].
  rewrite X. symmetry. apply skipn_app_len. unfold zeros. rewrite repeat_length. auto.
Qed.

(** The s part. *)
Lemma parse_s_inv : forall g st g1 n rest, bytes_ok st -> sg_s g = zeros 32 -> sg_t2 g = 0 ->
  0 <= sg_t1 g ->
  sig_parse_s g (4 + sg_t1 g) st = Ok (g1, n, rest) -> sg_status g1 = DONE ->
  exists s, length s = 32%nat /\ bytes_ok s /\ st = [2; len (sbody s)] ++ sbody s ++ rest /\
    sg_r g1 = sg_r g /\ sg_s g1 = s /\ n = 4 + sg_t1 g + 2 + len (sbody s) - sg_parsed g.
Proof.
  intros g st g1 n rest B S0 T0 T1 H D.
  assert (Z1 : int_len (zeros 32) 33 = 1) by reflexivity.
  unfold sig_parse_s in H.
  apply gate_inv in H as [(c & t & -> & _ & _ & F & H)|(C & H)]; auto; cbn [fst snd] in *.
  2:{ exfalso. destruct C as [->|[C|C]]; [|discriminate|lia].
      rewrite !gate_nil in H. cbn [read_loop_o bind] in H. unfold sig_slen, set_s in H. cbn [sg_s sg_t2] in H.
      rewrite S0, T0, Z1 in H. cbn in H. injection H as <- _ _. discriminate. }
  apply Z.eqb_eq in F. subst c.
  apply gate_inv in H as [(c & u & -> & _ & _ & F & H)|(C & H)]; auto; cbn [fst snd] in *.
  2:{ exfalso. destruct C as [->|[C|C]]; [|discriminate|lia].
      rewrite !gate_nil in H. cbn [read_loop_o bind] in H. unfold sig_slen, set_s in H. cbn [sg_s sg_t2] in H.
      rewrite S0, T0, Z1 in H. cbn in H. injection H as <- _ _. discriminate. }
  assert (Hc : 0 <= c <= 33).
  { pose proof (Forall_inv (Forall_inv_tail B)) as B0. cbv beta in B0. unfold byte_ok in B0.
    destruct (Z.ltb_spec 33 c); [discriminate|lia]. }
  pose proof (Forall_inv_tail (Forall_inv_tail B)) as BU.
  unfold set_t2 in H. cbn [sg_r sg_s sg_t0 sg_t1 sg_t2 sg_index sg_status sg_parsed] in H.
  apply gate_inv in H as [(z & v & -> & T33 & _ & F' & H)|(C & H)]; auto; cbn [fst snd] in *.
  - apply Z.eqb_eq in T33. apply Z.eqb_eq in F'. subst z c.
    cbn [sg_r sg_s sg_t0 sg_t1 sg_t2 sg_index sg_status sg_parsed] in H. rewrite S0 in H.
    destruct (read_loop_o _ _ _ _ v) as [[[x pos1] r1]|] eqn:RL; cbn [bind] in H; [|discriminate].
    unfold sig_slen, set_s in H. cbn [sg_r sg_s sg_t0 sg_t1 sg_t2 sg_index sg_status sg_parsed] in H.
    destruct (Z.eqb_spec (int_len x 33) 33) as [E|E]; cbn [negb] in H; [|injection H as <- _ _; discriminate].
    destruct (Z.eqb_spec pos1 (4 + sg_t1 g + 2 + 33)) as [EP|EP]; [|injection H as <- _ _; discriminate].
    injection H as <- <- <-.
    apply (fill_complete (4 + sg_t1 g + 1 + 1 + 1)) in RL as (LX & BX & _ & _ & K); try lia; auto.
    2:{ intros. f_equal. lia. }
    2:{ exact (Forall_inv_tail BU). }
    destruct (K ltac:(lia)) as (A & XA & VA & LA).
    rewrite Z.sub_diag in XA. cbn [Z.to_nat zeros repeat app] in XA. subst A.
    destruct (sbody_spec x LX BX) as (_ & LB & _).
    assert (SB : sbody x = 0 :: x) by (unfold sbody; rewrite E; reflexivity).
    exists x. rewrite LB, E. rewrite SB. cbn [sg_r sg_s app]. split; auto. split; auto. split; [rewrite VA; auto|]. repeat split; auto. lia.
  - cbn [sg_r sg_s sg_t0 sg_t1 sg_t2 sg_index sg_status sg_parsed] in H. rewrite S0 in H.
    destruct (read_loop_o _ _ _ _ u) as [[[x pos1] r1]|] eqn:RL; cbn [bind] in H; [|discriminate].
    unfold sig_slen, set_s in H. cbn [sg_r sg_s sg_t0 sg_t1 sg_t2 sg_index sg_status sg_parsed] in H.
    destruct (Z.eqb_spec (int_len x 33) c) as [E|E]; cbn [negb] in H; [|injection H as <- _ _; discriminate].
    destruct (Z.eqb_spec pos1 (4 + sg_t1 g + 2 + c)) as [EP|EP]; [|injection H as <- _ _; discriminate].
    injection H as <- <- <-.
    assert (C33 : c < 33).
    { destruct C as [->|[C|C]].
      - cbn [read_loop_o] in RL. injection RL as <- <- <-. rewrite Z1 in E. lia.
      - apply Z.eqb_neq in C. lia.
      - lia. }
    apply (fill_complete (4 + sg_t1 g + 1 + 1 - 32 + c)) in RL as (LX & BX & _ & _ & K); try lia; auto.
    2:{ intros. f_equal. lia. }
    destruct (K ltac:(lia)) as (A & XA & VA & LA).
    replace (Z.to_nat _) with (Z.to_nat (32 - c)) in XA by lia.
    apply (sbody_of x c) in XA; auto; try lia. subst A.
    exists x. rewrite LA. cbn [sg_r sg_s app]. split; auto. split; auto.
    split; [rewrite VA; do 2 f_equal; lia|]. repeat split; auto. lia.
Qed.

Lemma parse_s_nil : forall g pos g1 n rest, sg_s g = zeros 32 -> sg_t2 g = 0 ->
  sig_parse_s g pos [] = Ok (g1, n, rest) -> sg_status g1 = FAILED.
Proof.
  intros g pos g1 n rest S0 T0 H. unfold sig_parse_s in H. rewrite !gate_nil in H. cbn [read_loop_o bind] in H.
  unfold sig_slen, set_s in H. cbn [sg_s sg_t2] in H.
  rewrite S0, T0 in H. change (int_len (zeros 32) 33 =? 0) with false in H. cbn [negb] in H. injection H as <- _ _. reflexivity.
Qed.

(** The whole. *)
Lemma sig_parse_inv : forall g0 st g1 n rest, bytes_ok st -> sg_status g0 = DONE ->
  sig_parse g0 st = Ok (g1, n, rest) -> sg_status g1 = DONE ->
  exists r s t, length r = 32%nat /\ bytes_ok r /\ length s = 32%nat /\ bytes_ok s /\ 0 <= t <= 70 /\
    sg_r g1 = r /\ sg_s g1 = s /\ st = with_total (der_of r s) t ++ rest /\ n = len (der_of r s).
Proof.
  intros g0 st g1 n rest B ST H D. unfold sig_parse in H. rewrite ST in H. unfold sig_parse_body in H.
  cbn [sg_r sg_s sg_t0 sg_t1 sg_t2 sg_index sg_status sg_parsed] in H.
  apply gate_inv in H as [(c & u & -> & _ & _ & F & H)|(C & H)]; auto; cbn [fst snd] in *.
  2:{ exfalso. destruct C as [->|[C|C]]; [|discriminate|lia]. vm_compute in H. injection H as <- _ _. discriminate. }
  apply Z.eqb_eq in F. subst c. pose proof (Forall_inv_tail B) as B1. clear B.
  apply gate_inv in H as [(t & v & -> & _ & _ & F & H)|(C & H)]; auto; cbn [fst snd] in *.
  2:{ exfalso. destruct C as [->|[C|C]]; [|discriminate|lia]. vm_compute in H. injection H as <- _ _. discriminate. }
  assert (Ht : 0 <= t <= 70).
  { pose proof (Forall_inv B1) as B0. cbv beta in B0. unfold byte_ok in B0.
    destruct (Z.ltb_spec 70 t); [discriminate|lia]. }
  pose proof (Forall_inv_tail B1) as B2. clear B1 F.
  apply gate_inv in H as [(c & u & -> & _ & _ & F & H)|(C & H)]; auto; cbn [fst snd] in *.
  2:{ exfalso. destruct C as [->|[C|C]]; [|discriminate|lia]. vm_compute in H. injection H as <- _ _. discriminate. }
  apply Z.eqb_eq in F. subst c. pose proof (Forall_inv_tail B2) as B1. clear B2.
  apply gate_inv in H as [(l & v & -> & _ & _ & F & H)|(C & H)]; auto; cbn [fst snd] in *.
  2:{ exfalso. destruct C as [->|[C|C]]; [|discriminate|lia]. vm_compute in H. injection H as <- _ _. discriminate. }
  assert (Hl : 0 <= l <= 33).
  { pose proof (Forall_inv B1) as B0. cbv beta in B0. unfold byte_ok in B0.
    destruct (Z.ltb_spec 33 l); [discriminate|lia]. }
  pose proof (Forall_inv_tail B1) as BV. clear B1 F.
  change (0 + 1 + 1 + 1 + 1) with 4 in H. unfold set_t0, set_t1 in H.
  cbn [sg_r sg_s sg_t0 sg_t1 sg_t2 sg_index sg_status sg_parsed] in H.
  assert (Z1 : int_len (zeros 32) 33 = 1) by reflexivity.
  assert (FIN : forall x w, length x = 32%nat -> bytes_ok x -> bytes_ok w -> int_len x 33 = l -> v = sbody x ++ w ->
    sig_parse_s (mkSig x (zeros 32) t l 0 (sg_index g0) INCOMPLETE 0) (4 + l) w = Ok (g1, n, rest) ->
    exists r s t0, length r = 32%nat /\ bytes_ok r /\ length s = 32%nat /\ bytes_ok s /\ 0 <= t0 <= 70 /\
    sg_r g1 = r /\ sg_s g1 = s /\ 48 :: t :: 2 :: l :: v = with_total (der_of r s) t0 ++ rest /\ n = len (der_of r s)).
  { intros x w LX BX BW EX EV HS. apply parse_s_inv in HS as (s & LS & BS & EW & ER & ES & EN); auto; [|cbn; lia].
    cbn [sg_r sg_t1 sg_parsed] in *.
    exists x, s, t. split; auto. split; auto. split; auto. split; auto. split; auto. split; auto. split; auto.
    destruct (sbody_spec x LX BX) as (_ & LB & _).
    rewrite der_of_len. split; [|lia].
    unfold with_total, der_of. cbn [app hd skipn]. rewrite <- !app_assoc. rewrite EV, EW, LB, EX. reflexivity. }
  apply gate_inv in H as [(z & w & -> & T33 & _ & F' & H)|(C & H)]; auto; cbn [fst snd] in *.
  - apply Z.eqb_eq in T33. apply Z.eqb_eq in F'. subst z l.
    cbn [sg_r sg_s sg_t0 sg_t1 sg_t2 sg_index sg_status sg_parsed] in H.
    destruct (read_loop_o _ _ _ _ w) as [[[x pos1] r1]|] eqn:RL; cbn [bind] in H; [|discriminate].
    unfold sig_rlen, set_r in H. cbn [sg_r sg_s sg_t0 sg_t1 sg_t2 sg_index sg_status sg_parsed] in H.
    destruct (Z.eqb_spec (int_len x 33) 33) as [E|E]; cbn [negb] in H; [|injection H as <- _ _; discriminate].
    destruct r1 as [|c1 r1]; [apply parse_s_nil in H; auto; congruence|].
    assert (BR : bytes_ok (c1 :: r1)).
    { apply read_loop_o_pos in RL as (_ & _ & _ & _ & EW). pose proof (Forall_inv_tail BV) as BW.
      rewrite EW in BW. apply bytes_ok_app in BW. tauto. }
    apply (fill_complete 5) in RL as (LX & BX & _ & K0 & K); try lia; auto.
    2:{ intros. f_equal. lia. }
    2:{ exact (Forall_inv_tail BV). }
    specialize (K0 ltac:(discriminate)). subst pos1. destruct (K eq_refl) as (A & XA & VA & LA).
    change (Z.to_nat (4 + 1 - 5)) with 0%nat in XA. cbn [zeros repeat app] in XA. subst A.
    apply (FIN x (c1 :: r1)); auto. unfold sbody. rewrite E. change (33 =? 33) with true. cbv iota. rewrite VA. reflexivity.
  - cbn [sg_r sg_s sg_t0 sg_t1 sg_t2 sg_index sg_status sg_parsed] in H.
    destruct (read_loop_o _ _ _ _ v) as [[[x pos1] r1]|] eqn:RL; cbn [bind] in H; [|discriminate].
    unfold sig_rlen, set_r in H. cbn [sg_r sg_s sg_t0 sg_t1 sg_t2 sg_index sg_status sg_parsed] in H.
    destruct (Z.eqb_spec (int_len x 33) l) as [E|E]; cbn [negb] in H; [|injection H as <- _ _; discriminate].
    destruct r1 as [|c1 r1]; [apply parse_s_nil in H; auto; congruence|].
    assert (BR : bytes_ok (c1 :: r1)).
    { apply read_loop_o_pos in RL as (_ & _ & _ & _ & EW). 
      rewrite EW in BV. apply bytes_ok_app in BV. tauto. }
    assert (C33 : l < 33).
    { destruct C as [->|[C|C]].
      - cbn [read_loop_o] in RL. discriminate.
      - apply Z.eqb_neq in C. lia.
      - lia. }
    apply (fill_complete (4 - 32 + l)) in RL as (LX & BX & _ & K0 & K); try lia; auto.
    2:{ intros. f_equal. lia. }
    specialize (K0 ltac:(discriminate)). subst pos1. destruct (K eq_refl) as (A & XA & VA & LA).
    replace (Z.to_nat _) with (Z.to_nat (32 - l)) in XA by lia.
    apply (sbody_of x l) in XA; auto; try lia. subst A.
    apply (FIN x (c1 :: r1)); auto.
Qed.
