(** The two SHA-2 parameter sets meet the generic development, and their constants are the ones of
    the standard. *)
From Verif Require Import Base.Bytes Base.BytesFacts Base.Groups Spec.Codecs Spec.Hash.
From Verif Require Import Model.Hash Proof.IntVarint Proof.HashWords Proof.HashSha.
Require Import Lia.
Open Scope Z_scope.

Record sha_good (p : sha2) (F : fips) (cnt : Z * Z -> Z -> Prop) (lim : Z) : Prop := mkGood {
  gw : s_w p = f_w F;
  gb : f_w F = 8 * Z.of_nat (s_bytes p);
  gb0 : (0 < s_bytes p)%nat;
  gR : s_rounds p = f_rounds F;
  gR16 : (16 <= f_rounds F)%nat;
  gK : length (s_K p) = f_rounds F;
  gS0 : forall x, word_ok (f_w F) x -> Sigma p (s_S0 p) x = f_Sum0 F x;
  gS1 : forall x, word_ok (f_w F) x -> Sigma p (s_S1 p) x = f_Sum1 F x;
  gs0 : forall x, word_ok (f_w F) x -> sigma p (s_s0 p) x = f_sig0 F x;
  gs1 : forall x, word_ok (f_w F) x -> sigma p (s_s1 p) x = f_sig1 F x;
  grev : forall l, bytes_ok l -> length l = s_bytes p -> s_rev p (le l) = be_val 256 l;
  gadd : forall c n k, cnt c n -> 0 <= n -> 0 <= k < 2 ^ 61 -> n + k < lim -> cnt (s_add p c (k * 8)) (n + k);
  gused : forall c n, cnt c n -> 0 <= n -> Z.shiftr (fst c) 3 mod Z.of_nat (block_len p) = n mod Z.of_nat (block_len p);
  glen : forall c n, cnt c n -> 0 <= n < lim ->
    s_len p c = map (be_val 256) (groups (s_bytes p) (be_bytes (2 * s_bytes p) (8 * n)));
  gB32 : Z.of_nat (block_len p) < 2 ^ 32;
  gcnt0 : cnt (0, 0) 0;
  gcntB : cnt (Z.of_nat (block_len p) * 8, 0) (Z.of_nat (block_len p));
  glim : 2 ^ 61 <= lim;
  gH : regs_ok F (s_H p) }.

Lemma ROTR_eq : forall p n x, word_ok (s_w p) x -> 0 <= n <= s_w p -> ROTR p n x = rotr (s_w p) n x.
Proof. intros. unfold ROTR, word. apply rotr_eq; auto. Qed.

Definition cnt256 (c : Z * Z) (n : Z) : Prop := c = (8 * n, 0).
Definition cnt512 (c : Z * Z) (n : Z) : Prop := c = ((8 * n) mod 2 ^ 64, 8 * n / 2 ^ 64).

Lemma len_groups : forall b x, (0 < b)%nat -> 0 <= x < 256 ^ Z.of_nat (2 * b) ->
  map (be_val 256) (groups b (be_bytes (2 * b) x)) = [x / 256 ^ Z.of_nat b; x mod 256 ^ Z.of_nat b].
Proof.
  intros b x Hb Hx.
  assert (E : be_bytes (2 * b) x = be_bytes b (x / 256 ^ Z.of_nat b) ++ be_bytes b x).
  { unfold be_bytes. replace (2 * b)%nat with (b + b)%nat by lia. rewrite le_bytes_app, rev_app_distr. auto. }
  rewrite E. rewrite (groups_cons _ b) by (auto; apply be_bytes_length).
  rewrite (groups_one _ b) by (auto; apply be_bytes_length). cbn [map]. rewrite !be_val_be_bytes.
  rewrite (Z.mod_small (x / _)); auto. replace (Z.of_nat (2 * b)) with (Z.of_nat b + Z.of_nat b) in Hx by lia.
  rewrite Z.pow_add_r in Hx by lia.
  assert (0 < 256 ^ Z.of_nat b) by (apply Z.pow_pos_nonneg; lia).
  split; [apply Z.div_pos; lia|apply Z.div_lt_upper_bound; lia].
Qed.

Lemma regs_bool : forall F l, forallb (fun x => (0 <=? x) && (x <? 2 ^ f_w F)) l = true -> length l = 8%nat -> regs_ok F l.
Proof.
  intros F l H L. split; auto. apply Forall_forall. intros x Hx. rewrite forallb_forall in H.
  specialize (H x Hx). unfold word_ok. lia.
Qed.

Lemma good256 : sha_good SHA_256 fips256 cnt256 (2 ^ 61).
Proof.
  constructor; try reflexivity; try (cbn; lia).
  1-4: intros x Hx; cbn [SHA_256 s_S0 s_S1 s_s0 s_s1 Sigma sigma]; rewrite !ROTR_eq by (auto; cbn; lia);
    cbn [fips256 f_Sum0 f_Sum1 f_sig0 f_sig1]; unfold xor3, shr; rewrite ?Z.shiftr_div_pow2 by lia; reflexivity.
  - intros. apply REVERSE32_le; auto.
  - intros c n k C Hn Hk L. unfold cnt256 in *. subst c. cbn [SHA_256 s_add]. unfold add_count64, u64. cbn [fst snd].
    change (2 ^ 64) with (8 * 2 ^ 61). rewrite Z.mod_small by lia. f_equal. lia.
  - intros c n C Hn. unfold cnt256 in C. subst c. cbn [fst]. rewrite Z.shiftr_div_pow2 by lia.
    change (2 ^ 3) with 8. rewrite (Z.mul_comm 8), Z.div_mul by lia. reflexivity.
  - intros c n C Hn. unfold cnt256 in C. subst c. change (s_bytes SHA_256) with 4%nat.
    rewrite len_groups.
    + cbn [SHA_256 s_len]. unfold len_words64. cbn [fst]. change 0xffffffff with (Z.ones 32).
      rewrite Z.land_ones, Z.shiftr_div_pow2 by lia. reflexivity.
    + lia.
    + change (256 ^ Z.of_nat (2 * 4)) with (8 * 2 ^ 61). lia.
  - apply regs_bool; reflexivity.
Qed.

Lemma good512 : sha_good SHA_512 fips512 cnt512 (2 ^ 125).
Proof.
  constructor; try reflexivity; try (cbn; lia).
  1-4: intros x Hx; cbn [SHA_512 s_S0 s_S1 s_s0 s_s1 Sigma sigma]; rewrite !ROTR_eq by (auto; cbn; lia);
    cbn [fips512 f_Sum0 f_Sum1 f_sig0 f_sig1]; unfold xor3, shr; rewrite ?Z.shiftr_div_pow2 by lia; reflexivity.
  - intros. apply REVERSE64_le; auto.
  - intros c n k C Hn Hk L. unfold cnt512 in *. subst c. cbn [SHA_512 s_add]. unfold add_count128, u64. cbn [fst snd].
    change (2 ^ 125) with 42535295865117307932921825928971026432 in L.
    change (2 ^ 61) with 2305843009213693952 in Hk.
    change (2 ^ 64) with 18446744073709551616.
    f_equal; [dlia|]. destruct (Z.ltb_spec (((8 * n) mod 18446744073709551616 + k * 8) mod 18446744073709551616) (k * 8)); dlia.
  - intros c n C Hn. unfold cnt512 in C. subst c. cbn [fst]. rewrite Z.shiftr_div_pow2 by lia.
    change (Z.of_nat (block_len SHA_512)) with 128. change (2 ^ 64) with (8 * 2 ^ 61). rewrite Zmult_mod_distr_l.
    change (2 ^ 3) with 8. rewrite Z.mul_comm, Z.div_mul by lia.
    change (2 ^ 61) with (128 * 2 ^ 54). rewrite Z.rem_mul_r by lia.
    rewrite (Z.mul_comm 128), Z.mod_add by lia. apply Z.mod_mod. lia.
  - intros c n C Hn. unfold cnt512 in C. subst c. change (s_bytes SHA_512) with 8%nat.
    rewrite len_groups.
    + reflexivity.
    + lia.
    + change (256 ^ Z.of_nat (2 * 8)) with (8 * 2 ^ 125). lia.
  - apply regs_bool; reflexivity.
Qed.

(** * Constants *)
Lemma root_unique : forall e w p k k', 0 < e -> 0 <= w -> root_bits e w p k -> root_bits e w p k' -> k = k'.
Proof.
  intros e w p k k' He Hw [R (i & Hi & H1 & H2)] [R' (i' & Hi' & H1' & H2')].
  assert (W : 0 < 2 ^ w) by (apply Z.pow_pos_nonneg; lia).
  set (N := i * 2 ^ w + k) in *. set (N' := i' * 2 ^ w + k') in *.
  assert (EN : N mod 2 ^ w = k) by (unfold N; rewrite Z.add_comm, Z.mod_add by lia; apply Z.mod_small; lia).
  assert (EN' : N' mod 2 ^ w = k') by (unfold N'; rewrite Z.add_comm, Z.mod_add by lia; apply Z.mod_small; lia).
  assert (0 <= N /\ 0 <= N') as [P P'] by (split; unfold N, N'; (apply Z.add_nonneg_nonneg; [apply Z.mul_nonneg_nonneg|]; lia)).
  assert (N = N').
  { destruct (Z.lt_trichotomy N N') as [L|[L|L]]; auto; exfalso.
    - pose proof (Z.pow_le_mono_l (N + 1) N' e ltac:(lia)). lia.
    - pose proof (Z.pow_le_mono_l (N' + 1) N e ltac:(lia)). lia. }
  congruence.
Qed.
Lemma roots_unique : forall e w ps K K', 0 < e -> 0 <= w ->
  Forall2 (root_bits e w) ps K -> Forall2 (root_bits e w) ps K' -> K = K'.
Proof.
  intros e w ps K K' He Hw F. revert K'. induction F; intros K' F'; inversion_clear F'; auto.
  f_equal; auto. eapply root_unique; eauto.
Qed.
Lemma constants_unique : forall F K H K' H', 0 <= f_w F -> fips_constants F K H -> fips_constants F K' H' -> K = K' /\ H = H'.
Proof.
  intros F K H K' H' Hw [A B] [A' B']. split.
  - eapply (roots_unique 3); eauto. lia.
  - eapply (roots_unique 2); eauto. lia.
Qed.

(** A whole part for each root, by search below 21. *)
Definition whole (e p : Z) : Z :=
  fold_right (fun i r => if (i ^ e <=? p) && (p <? (i + 1) ^ e) then i else r) 0 [1; 2; 3; 4; 5; 6; 7].
Definition root_b (e w p k : Z) : bool :=
  let i := whole e p in
  (0 <=? k) && (k <? 2 ^ w) && (0 <=? i) && ((i * 2 ^ w + k) ^ e <=? p * 2 ^ (w * e))
  && (p * 2 ^ (w * e) <? (i * 2 ^ w + k + 1) ^ e).
Fixpoint roots_b (e w : Z) (ps ks : list Z) : bool :=
  match ps, ks with
  | [], [] => true
  | p :: ps, k :: ks => root_b e w p k && roots_b e w ps ks
  | _, _ => false
  end.
Lemma roots_b_ok : forall e w ps ks, roots_b e w ps ks = true -> Forall2 (root_bits e w) ps ks.
Proof.
  intros e w. induction ps; intros [|k ks] H; try discriminate; constructor; cbn [roots_b] in H;
    apply andb_true_iff in H as [H1 H2]; auto.
  unfold root_b in H1. cbv zeta in H1. repeat (apply andb_true_iff in H1 as [H1 ?]).
  split; [lia|]. exists (whole e a). lia.
Qed.
Lemma constants256 : fips_constants fips256 K256 H256.
Proof. split; apply roots_b_ok; vm_compute; reflexivity. Qed.
Lemma constants512 : fips_constants fips512 K512 H512.
Proof. split; apply roots_b_ok; vm_compute; reflexivity. Qed.

(** * Any sequence of writes *)
Section Any.
Variables (p : sha2) (F : fips) (cnt : Z * Z -> Z -> Prop) (lim : Z).
Hypothesis G : sha_good p F cnt lim.
Notation hash := (fips_hash F (s_K p) (s_H p)).
Definition grep := rep p F cnt.
Lemma gUpdate : forall c m data, grep (s_H p) c m -> bytes_ok data -> len (m ++ data) < lim ->
  len data < 2 ^ 61 -> grep (s_H p) (sha2_Update p c data) (m ++ data).
Proof. intros. destruct G. eapply Update_rep; eauto. Qed.
Lemma gFinal : forall c m, grep (s_H p) c m -> len m < lim -> fst (sha2_Final p c) = hash m.
Proof. intros. destruct G. rewrite (fips_hash_pad p F) by eauto. eapply Final_rep; eauto. Qed.
Lemma gInit : grep (s_H p) (sha2_Init p) [].
Proof. destruct G. eapply Init_rep; eauto. Qed.
Lemma gWrites : forall chunks c m, grep (s_H p) c m -> Forall bytes_ok chunks ->
  len (m ++ concat chunks) < lim -> Forall (fun d => len d < 2 ^ 61) chunks ->
  grep (s_H p) (fold_left (sha2_Update p) chunks c) (m ++ concat chunks).
Proof. intros. destruct G. eapply writes_rep; eauto. Qed.
Lemma any_writes : forall chunks, Forall bytes_ok chunks -> len (concat chunks) < lim ->
  Forall (fun d => len d < 2 ^ 61) chunks ->
  fst (sha2_Final p (fold_left (sha2_Update p) chunks (sha2_Init p))) = hash (concat chunks).
Proof. intros. apply gFinal; auto. apply (gWrites chunks _ []); auto using gInit. Qed.
Lemma one_write : forall data, bytes_ok data -> len data < 2 ^ 61 -> sha2_hash p data = hash data.
Proof.
  intros. unfold sha2_hash. apply gFinal; [|destruct G; lia]. change data with ([] ++ data) at 2.
  apply gUpdate; auto using gInit. cbn [app]. destruct G; lia.
Qed.
Lemma hash_len : forall m, bytes_ok m -> length (hash m) = (8 * s_bytes p)%nat.
Proof. intros. destruct G. eapply digest_len; eauto. Qed.
Lemma hash_ok : forall m, bytes_ok (hash m).
Proof. intros. destruct G. eapply digest_ok; eauto. Qed.
End Any.
