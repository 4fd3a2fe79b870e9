(** Mnemonics: generated sentences, round trip, exact acceptance, the seed cache. *)
From Coq Require Import Lia.
From Verif Require Import Base.Bytes Base.BytesFacts Base.Groups Spec.Hash Spec.Bip39 Model.Script Model.Hash Model.WordList Model.Bip39
  Proof.HashWords Proof.HashInst Proof.HashProps Proof.SigProps Proof.BipBits Proof.BipWords.
Open Scope Z_scope.

Lemma sha_len : forall d, bytes_ok d -> len d < 2 ^ 32 -> length (sha256 d) = 32%nat.
Proof.
  intros d O L. unfold sha256. rewrite (one_write _ _ _ _ good256 d) by (auto; pose proof (len_nonneg _ d); lia).
  apply (hash_len _ _ _ _ good256 d O).
Qed.
Lemma sha_ok : forall d, bytes_ok d -> len d < 2 ^ 32 -> bytes_ok (sha256 d).
Proof.
  intros d O L. unfold sha256. rewrite (one_write _ _ _ _ good256 d) by (auto; pose proof (len_nonneg _ d); lia).
  apply (hash_ok _ _ _ _ good256 d).
Qed.
#[local] Opaque sha256.

(** ** The sentence *)
Section Sentence.
Variable e : list Z. Variable q : nat.
Hypothesis Oe : bytes_ok e. Hypothesis Le : length e = (4 * q)%nat. Hypothesis Q : (q <= 8)%nat.
Lemma e_len : len e < 2 ^ 32. Proof. unfold len. lia. Qed.
Lemma cs_len : (8 * length e / 32)%nat = q.
Proof. rewrite Le. replace (8 * (4 * q))%nat with (q * 32)%nat by lia. apply Nat.div_mul. lia. Qed.
Definition h0 : Z := nth 0 (sha256 e) 0.
Lemma sha_cons : exists t, sha256 e = h0 :: t.
Proof. unfold h0. pose proof (sha_len e Oe e_len). destruct (sha256 e); [discriminate|]. eexists. reflexivity. Qed.
Lemma h0_ok : byte_ok h0.
Proof. destruct sha_cons as [t E]. pose proof (sha_ok e Oe e_len) as O. rewrite E in O. exact (Forall_inv O). Qed.
Lemma firstn_byte : forall t, firstn q (byte_bits h0 ++ t) = firstn q (byte_bits h0).
Proof. intros. rewrite firstn_app. replace (q - length (byte_bits h0))%nat with 0%nat by (rewrite byte_bits_len; lia). rewrite firstn_O, app_nil_r. reflexivity. Qed.
Lemma bip_bits_eq : bip39_bits sha256 e = bits_of e ++ firstn q (byte_bits h0).
Proof. unfold bip39_bits. rewrite cs_len. destruct sha_cons as [t ->]. rewrite bits_of_cons, firstn_byte. reflexivity. Qed.
Lemma bip_bits_len : length (bip39_bits sha256 e) = (3 * q * 11)%nat.
Proof. rewrite bip_bits_eq, app_length, bits_of_len, Le, firstn_length, byte_bits_len. lia. Qed.
Definition ks := bip39_indices sha256 e.
Lemma groups_facts : length (groups 11 (bip39_bits sha256 e)) = (3 * q)%nat /\ Forall (fun g => length g = 11%nat) (groups 11 (bip39_bits sha256 e)) /\
  concat (groups 11 (bip39_bits sha256 e)) = bip39_bits sha256 e.
Proof. apply groups_all; [lia|]. apply bip_bits_len. Qed.
Lemma ks_len : length ks = (3 * q)%nat. Proof. unfold ks, bip39_indices. rewrite map_length. apply groups_facts. Qed.
Lemma ks_ok : Forall idx_ok ks.
Proof.
  unfold ks, bip39_indices. apply Forall_forall. intros k K. apply in_map_iff in K as (g & <- & G).
  apply bits_val_idx. destruct groups_facts as (_ & F & _). rewrite Forall_forall in F. auto.
Qed.
Lemma ks_bits_eq : ks_bits ks = bip39_bits sha256 e.
Proof.
  destruct groups_facts as (_ & F & C). transitivity (concat (groups 11 (bip39_bits sha256 e))); [|exact C].
  unfold ks_bits, ks, bip39_indices. rewrite map_map. apply f_equal.
  transitivity (map (fun g => g) (groups 11 (bip39_bits sha256 e))); [|apply map_id]. apply map_ext_in. intros g G. rewrite Forall_forall in F. apply F in G. rewrite <- G. apply val_bits_n.
Qed.
Lemma sentence_spell : bip39_sentence sha256 wordlist e = spell ks.
Proof. reflexivity. Qed.

Lemma from_data_eq : forall junk, byte_ok junk -> (4 <= q)%nat ->
  mnemonic_from_data junk e (len e) = Ok (Some (bip39_sentence sha256 wordlist e)).
Proof.
  intros junk Oj Q4. unfold mnemonic_from_data.
  assert (LE : len e = Z.of_nat (4 * q)) by (unfold len; rewrite Le; reflexivity).
  assert (C : negb (len e mod 4 =? 0) || (len e <? 16) || (32 <? len e) = false).
  { rewrite LE. replace (Z.of_nat (4 * q)) with (Z.of_nat q * 4) by lia. rewrite Z.mod_mul by lia. cbn [Z.eqb negb orb].
    rewrite (proj2 (Z.ltb_ge _ 16)) by lia. rewrite (proj2 (Z.ltb_ge 32 _)) by lia. reflexivity. }
  assert (FN : firstn (Z.to_nat (len e)) e = e) by (unfold len; rewrite Nat2Z.id; apply firstn_all).
  rewrite C, Z.ltb_irrefl, FN. cbv zeta.
  destruct sha_cons as [t Es]. pose proof (sha_len e Oe e_len) as Ls. pose proof (sha_ok e Oe e_len) as Os. rewrite Es in *. cbn [app].
  cbn [length] in Ls. change (aget (h0 :: t ++ [junk]) 0) with (aget ((h0 :: t) ++ [junk]) 0). rewrite aget_ok by (rewrite len_app, len_cons; unfold len; cbn [length]; lia).
  cbn [bind app Z.to_nat nth].
  assert (A : exists r, aset (h0 :: t ++ [junk]) (len e) h0 = Ok r /\ length r = 33%nat /\ nth (4 * q) r 0 = h0 /\ bytes_ok r).
  { assert (G : forall (l : list Z) (i : nat) v, (i < length l)%nat -> aset l (Z.of_nat i) v = Ok (set_nth l i v) /\ nth i (set_nth l i v) 0 = v).
    { clear. intros l i v L. split; [unfold aset; rewrite Nat2Z.id; assert (T : (0 <=? Z.of_nat i) && (Z.of_nat i <? len l) = true) by (apply andb_true_intro; split; [apply Z.leb_le|apply Z.ltb_lt]; unfold len; lia); rewrite T; reflexivity|].
      revert i L. induction l; intros i L; [cbn in L; lia|]. destruct i; [reflexivity|]. cbn [set_nth nth]. apply IHl. cbn [length] in L. lia. }
    rewrite LE. destruct (G (h0 :: t ++ [junk]) (4 * q)%nat h0) as [G1 G2]; [cbn [length]; rewrite app_length; cbn [length]; lia|].
    eexists. split; [exact G1|]. split; [rewrite set_nth_length; cbn [length]; rewrite app_length; cbn [length]; lia|]. split; [exact G2|].
    apply set_ok; [|exact h0_ok]. change (h0 :: t ++ [junk]) with ((h0 :: t) ++ [junk]). apply bytes_ok_app. split; auto. constructor; auto. }
  destruct A as (r & -> & Lr & Nr & Or). cbn [bind]. rewrite write_prefix by (rewrite Le, Lr; clear - Q; lia). cbn [bind].
  rewrite Le. rewrite (firstn_S_nth _ r (4 * q) 0) by lia. rewrite Nr.
  set (rest := skipn (S (4 * q)) r).
  (* bytes after the checksum byte are not read; only their bits must exist *)
  destruct groups_facts as (G1 & G2 & G3).
  assert (ML : len e * 3 / 4 = Z.of_nat (0 + length (groups 11 (bip39_bits sha256 e)))).
  { rewrite G1, LE. cbn [Nat.add]. replace (Z.of_nat (4 * q) * 3) with (Z.of_nat (3 * q) * 4) by lia. apply Z.div_mul. lia. }
  rewrite ML. cbn [Nat.add]. rewrite Nat2Z.id.
  assert (Orest : bytes_ok rest) by (apply bytes_ok_skipn; auto).
  change 0 with (Z.of_nat 0) at 1.
  rewrite (words_out_eq _ 0 _ [] [] (skipn q (byte_bits h0) ++ bits_of rest)).
  - cbn [bind app]. unfold bip39_sentence, bip39_indices. rewrite map_map. reflexivity.
  - apply bytes_ok_app. split; auto. constructor; auto using h0_ok.
  - rewrite G3, bip_bits_eq, bits_of_app, bits_of_cons. cbn [app]. rewrite <- app_assoc. f_equal.
    rewrite app_assoc, firstn_skipn. reflexivity.
  - reflexivity.
  - exact G2.
  - reflexivity.
  - rewrite G1. lia.
  - rewrite len_nil. lia.
Qed.
End Sentence.

(** ** Reading sentences *)
Lemma zeros_bits : bits_of (zeros 33) = [] ++ repeat false 264.
Proof. vm_compute. reflexivity. Qed.
Definition entropy_of (ks : list Z) (bits : list Z) : Prop :=
  bytes_ok bits /\ bits_of bits = ks_bits ks ++ repeat false (264 - 11 * length ks).
Definition count_ok (q : nat) : Prop := q = 4%nat \/ q = 6%nat \/ q = 8%nat.
Lemma spell_spaces : forall ks, Forall idx_ok ks -> ks <> [] -> spaces (spell ks) = len ks - 1.
Proof. intros ks F N. unfold spell. rewrite spaces_join; [rewrite len_map; reflexivity|apply no_spaces_map; auto|destruct ks; [congruence|discriminate]]. Qed.
Lemma to_entropy_spell : forall ks q, Forall idx_ok ks -> length ks = (3 * q)%nat -> count_ok q ->
  exists bits, mnemonic_to_entropy (spell ks) = Ok (Some (33 * Z.of_nat q, bits)) /\ entropy_of ks bits.
Proof.
  intros ks q F L C. assert (NE : ks <> []) by (destruct ks; [destruct C as [|[|]]; cbn in L; lia|discriminate]).
  assert (Ln : len ks = 3 * Z.of_nat q) by (unfold len; lia).
  unfold mnemonic_to_entropy. rewrite (spell_spaces ks F NE).
  replace (len ks - 1 + 1) with (len ks) by lia. rewrite u32_id by (destruct C as [|[|]]; lia).
  assert (T : negb (len ks =? 12) && negb (len ks =? 18) && negb (len ks =? 24) = false).
  { rewrite Ln. destruct C as [->|[->| ->]]; reflexivity. }
  rewrite T. destruct (words_in_spell (length (spell ks)) ks (zeros 33) [] 264) as (b & bi & E1 & O & E2 & E3);
    [auto|apply bytes_ok_zeros|exact zeros_bits|auto|auto|destruct C as [|[|]]; lia|].
  change (len (@nil bool)) with 0 in *. rewrite E1. cbn [bind]. rewrite E3.
  replace (0 + 11 * len ks) with (len ks * 11) by lia. rewrite Z.eqb_refl. cbn [negb].
  exists b. split; [rewrite Ln; do 3 f_equal; lia|]. split; auto.
Qed.
Lemma to_entropy_sound : forall s, spaces s + 1 < 2 ^ 32 ->
  mnemonic_to_entropy s = Ok None \/
  exists ks q, Forall idx_ok ks /\ length ks = (3 * q)%nat /\ count_ok q /\ s = spell ks.
Proof.
  intros s B. unfold mnemonic_to_entropy. pose proof (spaces_nonneg s). rewrite u32_id by lia.
  destruct (negb (spaces s + 1 =? 12) && negb (spaces s + 1 =? 18) && negb (spaces s + 1 =? 24)) eqn:T; [auto|].
  assert (N : spaces s + 1 = 12 \/ spaces s + 1 = 18 \/ spaces s + 1 = 24).
  { destruct (Z.eqb_spec (spaces s + 1) 12), (Z.eqb_spec (spaces s + 1) 18), (Z.eqb_spec (spaces s + 1) 24); try discriminate; auto. }
  destruct s as [|c s0] eqn:Es; [cbn in N; lia|]. rewrite <- Es in *.
  destruct (words_in_sound (length s) s (zeros 33) [] 264) as [E|(b & bi & ks & E1 & E2 & E3 & (O & E4 & E5) & E6)];
    [auto|apply bytes_ok_zeros|exact zeros_bits|rewrite Es; discriminate|lia| |].
  { change (len (@nil bool)) with 0 in E. rewrite E. auto. }
  change (len (@nil bool)) with 0 in *. rewrite E1. cbn [bind].
  destruct (Z.eqb_spec bi ((spaces s + 1) * 11)) as [Eb|]; [|auto].
  right. cbn [negb]. assert (Lk : len ks = spaces s + 1) by lia.
  destruct E6 as [Esp|Esp].
  - exists ks. destruct N as [N|[N|N]]; [exists 4%nat|exists 6%nat|exists 8%nat]; unfold count_ok; unfold len in Lk; (split; [auto|split; [lia|split; [lia|auto]]]).
  - exfalso. assert (Sp : spaces s = len ks) by (rewrite Esp, spaces_app, (spell_spaces ks E3 E2); change (spaces [32]) with 1; lia). lia.
Qed.
(** The bytes of the entropy and the byte that holds the checksum. *)
Lemma bits_of_firstn : forall n l, bits_of (firstn n l) = firstn (8 * n) (bits_of l).
Proof.
  induction n; intros l; [reflexivity|]. destruct l as [|x l]; [rewrite !firstn_nil; reflexivity|].
  cbn [firstn]. rewrite !bits_of_cons, IHn. rewrite firstn_app. rewrite byte_bits_len.
  rewrite (firstn_all2 (byte_bits x)) by (rewrite byte_bits_len; lia). do 2 f_equal. lia.
Qed.
Lemma bits_of_skipn : forall n l, bits_of (skipn n l) = skipn (8 * n) (bits_of l).
Proof.
  induction n; intros l; [reflexivity|]. destruct l as [|x l]; [rewrite !skipn_nil; reflexivity|].
  cbn [skipn]. rewrite !bits_of_cons, IHn. rewrite skipn_app. rewrite byte_bits_len.
  rewrite (skipn_all2 (byte_bits x)) by (rewrite byte_bits_len; lia). cbn [app]. f_equal. lia.
Qed.
Lemma entropy_len : forall ks bits q, length ks = (3 * q)%nat -> (q <= 8)%nat -> entropy_of ks bits -> length bits = 33%nat.
Proof.
  intros ks bits q L Q (O & E). apply (f_equal (@length bool)) in E. rewrite bits_of_len, app_length, ks_bits_len, repeat_length in E. lia.
Qed.
Lemma entropy_split : forall ks bits q, length ks = (3 * q)%nat -> (q <= 8)%nat -> entropy_of ks bits ->
  ks_bits ks = bits_of (firstn (4 * q) bits) ++ firstn q (byte_bits (nth (4 * q) bits 0)).
Proof.
  intros ks bits q L Q H. pose proof (entropy_len ks bits q L Q H) as Lb. destruct H as (O & E).
  assert (K : ks_bits ks = firstn (11 * (3 * q)) (bits_of bits)).
  { rewrite E. symmetry. apply firstn_app_len. rewrite ks_bits_len. lia. }
  rewrite K. rewrite <- (firstn_skipn (4 * q) bits) at 1. rewrite bits_of_app.
  rewrite (firstn_S_nth _ bits (4 * q) 0) by lia. rewrite bits_of_cons.
  assert (LA : length (bits_of (firstn (4 * q) bits)) = (32 * q)%nat) by (rewrite bits_of_len, firstn_length, Lb; lia).
  rewrite firstn_app, LA, (firstn_all2 (bits_of _)) by lia. f_equal.
  replace (11 * (3 * q) - 32 * q)%nat with q by lia.
  rewrite firstn_app, byte_bits_len. replace (q - 8)%nat with 0%nat by lia. rewrite firstn_O, app_nil_r. reflexivity.
Qed.
(** The comparison of the first bits of two bytes. *)
Lemma mask_bits : forall q M, (q = 4%nat /\ M = 0xF0 \/ q = 6%nat /\ M = 0xFC) -> forall a b, byte_ok a -> byte_ok b ->
  (Z.land a M =? Z.land b M) = true <-> firstn q (byte_bits a) = firstn q (byte_bits b).
Proof.
  intros q M H.
  assert (G : forall a, byte_bits (Z.land a M) = firstn q (byte_bits a) ++ repeat false (8 - q)).
  { intros a. unfold byte_bits. rewrite !Z.land_spec.
    destruct H as [[-> ->]|[-> ->]]; cbn -[Z.testbit]; repeat match goal with |- context [Z.testbit (Zpos ?m) ?i] => let v := eval vm_compute in (Z.testbit (Zpos m) i) in change (Z.testbit (Zpos m) i) with v end;
    rewrite ?andb_true_r, ?andb_false_r; reflexivity. }
  assert (B : forall a, byte_ok a -> byte_ok (Z.land a M)).
  { intros a A. unfold byte_ok in *. split; [apply Z.land_nonneg; lia|].
    apply Z.le_lt_trans with a; [|lia]. apply Z.ldiff_le; [lia|]. apply Z.bits_inj'. intros i I. rewrite Z.ldiff_spec, Z.land_spec, Z.bits_0.
    destruct (Z.testbit a i); cbn; auto. rewrite andb_false_r. reflexivity. }
  intros a b A Bb. rewrite Z.eqb_eq. split; intro E.
  - apply (f_equal byte_bits) in E. rewrite !G in E. apply app_inv_tail in E. exact E.
  - apply byte_bits_inj; auto. rewrite !G, E. reflexivity.
Qed.
Definition accepts (q : nat) (h c : Z) : bool :=
  if (Z.of_nat (3 * q) =? 12) then Z.land h 0xF0 =? Z.land c 0xF0
  else if (Z.of_nat (3 * q) =? 18) then Z.land h 0xFC =? Z.land c 0xFC
  else if (Z.of_nat (3 * q) =? 24) then h =? c else false.
Lemma accepts_bits : forall q h c, count_ok q -> byte_ok h -> byte_ok c ->
  accepts q h c = true <-> firstn q (byte_bits h) = firstn q (byte_bits c).
Proof.
  intros q h c C H1 H2. unfold accepts. destruct C as [->|[->| ->]].
  - change (Z.of_nat (3 * 4) =? 12) with true. cbv iota. apply (mask_bits 4 0xF0); auto.
  - change (Z.of_nat (3 * 6) =? 12) with false. change (Z.of_nat (3 * 6) =? 18) with true. cbv iota. apply (mask_bits 6 0xFC); auto.
  - change (Z.of_nat (3 * 8) =? 12) with false. change (Z.of_nat (3 * 8) =? 18) with false. change (Z.of_nat (3 * 8) =? 24) with true. cbv iota.
    rewrite Z.eqb_eq. rewrite !firstn_all2 by (rewrite byte_bits_len; lia). split; [intros ->; auto|apply byte_bits_inj; auto].
Qed.
Lemma check_spell : forall ks q bits, Forall idx_ok ks -> length ks = (3 * q)%nat -> count_ok q ->
  mnemonic_to_entropy (spell ks) = Ok (Some (33 * Z.of_nat q, bits)) -> entropy_of ks bits ->
  mnemonic_check (spell ks) = Ok (accepts q (h0 (firstn (4 * q) bits)) (nth (4 * q) bits 0)).
Proof.
  intros ks q bits F L C E H. unfold mnemonic_check. rewrite E. cbn [bind].
  assert (Q : (q <= 8)%nat) by (destruct C as [|[|]]; lia).
  pose proof (entropy_len ks bits q L Q H) as Lb.
  assert (W : 33 * Z.of_nat q / 11 = Z.of_nat (3 * q)).
  { replace (33 * Z.of_nat q) with (Z.of_nat (3 * q) * 11) by lia. apply Z.div_mul. lia. }
  rewrite W. assert (V : Z.of_nat (3 * q) * 4 / 3 = Z.of_nat (4 * q)).
  { replace (Z.of_nat (3 * q) * 4) with (Z.of_nat (4 * q) * 3) by lia. apply Z.div_mul. lia. }
  rewrite V. rewrite aget_ok by (unfold len; lia). cbn [bind]. rewrite !Nat2Z.id.
  destruct H as [O _].
  assert (Le : length (firstn (4 * q) bits) = (4 * q)%nat) by (rewrite firstn_length; lia).
  destruct (sha_cons (firstn (4 * q) bits) q (bytes_ok_firstn _ _ O) Le Q) as [t Et]. rewrite Et.
  change (aget (h0 (firstn (4 * q) bits) :: t) 0) with (Ok (h0 (firstn (4 * q) bits))). cbn [bind].
  unfold accepts. destruct (Z.of_nat (3 * q) =? 12); [reflexivity|]. destruct (Z.of_nat (3 * q) =? 18); [reflexivity|].
  destruct (Z.of_nat (3 * q) =? 24); reflexivity.
Qed.
Lemma ks_bits_inj : forall a b, Forall idx_ok a -> Forall idx_ok b -> ks_bits a = ks_bits b -> a = b.
Proof.
  induction a as [|x a IH]; intros [|y b] A B E; auto; try discriminate.
  unfold ks_bits in E. cbn [map concat] in E. apply app_inj_len in E as [E1 E2]; [|rewrite !bits_n_len; auto].
  f_equal; [|apply IH; auto; [exact (Forall_inv_tail A)|exact (Forall_inv_tail B)]].
  apply (f_equal bits_val) in E1. rewrite !bits_n_val in E1. pose proof (Forall_inv A) as X. pose proof (Forall_inv B) as Y. unfold idx_ok in X, Y.
  change (2 ^ Z.of_nat 11) with 2048 in E1. rewrite !Z.mod_small in E1 by auto. exact E1.
Qed.
Lemma length_q : forall e : list Z, (length e = 16 \/ length e = 24 \/ length e = 32)%nat -> exists q, length e = (4 * q)%nat /\ count_ok q /\ (q <= 8)%nat.
Proof. unfold count_ok. intros e [H|[H|H]]; [exists 4%nat|exists 6%nat|exists 8%nat]; lia. Qed.
(** What the reader makes of a sentence. *)
Lemma sentence_read : forall e q, bytes_ok e -> length e = (4 * q)%nat -> count_ok q ->
  exists bits, mnemonic_to_entropy (bip39_sentence sha256 wordlist e) = Ok (Some (33 * Z.of_nat q, bits)) /\
    entropy_of (ks e) bits /\ firstn (4 * q) bits = e /\ firstn q (byte_bits (nth (4 * q) bits 0)) = firstn q (byte_bits (h0 e)).
Proof.
  intros e q O L C. assert (Q : (q <= 8)%nat) by (destruct C as [|[|]]; lia).
  rewrite sentence_spell. pose proof (ks_ok e q O L Q) as F. pose proof (ks_len e q O L Q) as Lk.
  destruct (to_entropy_spell (ks e) q F Lk C) as (bits & E & H).
  exists bits. split; [exact E|]. split; [exact H|].
  pose proof (entropy_split (ks e) bits q Lk Q H) as S. rewrite (ks_bits_eq e q O L Q), (bip_bits_eq e q O L Q) in S.
  pose proof (entropy_len (ks e) bits q Lk Q H) as Lb.
  apply app_inj_len in S as [S1 S2]; [|rewrite !bits_of_len, firstn_length, L; lia].
  split; [|auto]. symmetry. apply bits_of_inj; auto. apply bytes_ok_firstn. apply H.
Qed.
Lemma sentence_check : forall e q, bytes_ok e -> length e = (4 * q)%nat -> count_ok q ->
  mnemonic_check (bip39_sentence sha256 wordlist e) = Ok true.
Proof.
  intros e q O L C. assert (Q : (q <= 8)%nat) by (destruct C as [|[|]]; lia).
  destruct (sentence_read e q O L C) as (bits & E & H & E1 & E2). rewrite sentence_spell in *.
  rewrite (check_spell _ _ _ (ks_ok e q O L Q) (ks_len e q O L Q) C E H). rewrite E1. f_equal.
  apply accepts_bits; auto.
  - apply (h0_ok e q O L Q).
  - apply (proj1 (Forall_forall _ _) (proj1 H)). apply nth_In. rewrite (entropy_len _ _ q (ks_len e q O L Q) Q H). lia.
Qed.
Lemma check_sentence : forall s, spaces s + 1 < 2 ^ 32 -> mnemonic_check s = Ok true ->
  exists e, bytes_ok e /\ (length e = 16 \/ length e = 24 \/ length e = 32)%nat /\ s = bip39_sentence sha256 wordlist e.
Proof.
  intros s B H. destruct (to_entropy_sound s B) as [E|(ks0 & q & F & L & C & Es)].
  { unfold mnemonic_check in H. rewrite E in H. discriminate. }
  assert (Q : (q <= 8)%nat) by (destruct C as [|[|]]; lia). subst s.
  destruct (to_entropy_spell ks0 q F L C) as (bits & E & Hb). rewrite (check_spell ks0 q bits F L C E Hb) in H.
  apply (f_equal (fun o => match o with Ok b => b | UB => false end)) in H. cbv beta iota in H.
  pose proof (entropy_len _ _ q L Q Hb) as Lb. set (e := firstn (4 * q) bits) in *.
  assert (O : bytes_ok e) by (apply bytes_ok_firstn; apply Hb).
  assert (Le : length e = (4 * q)%nat) by (unfold e; rewrite firstn_length; lia).
  apply accepts_bits in H; auto.
  2: apply (h0_ok e q O Le Q).
  2: { apply (proj1 (Forall_forall _ _) (proj1 Hb)). apply nth_In. lia. }
  exists e. split; auto. split; [destruct C as [|[|]]; lia|].
  rewrite sentence_spell. f_equal. apply ks_bits_inj; auto; [apply (ks_ok e q O Le Q)|].
  rewrite (ks_bits_eq e q O Le Q), (bip_bits_eq e q O Le Q), (entropy_split ks0 bits q L Q Hb). fold e. f_equal. symmetry. exact H.
Qed.

(** ** The library functions *)
Lemma sentence_ext : forall f g w e, f e = g e -> bip39_sentence f w e = bip39_sentence g w e.
Proof. intros f g w e E. unfold bip39_sentence, bip39_indices, bip39_bits. rewrite E. reflexivity. Qed.
Lemma sha_fips : forall K H e, fips_constants fips256 K H -> bytes_ok e -> len e < 2 ^ 32 -> sha256 e = fips_hash fips256 K H e.
Proof. intros K H e C O L. exact (proj1 (one_shots K H K512 H512 _ _ e C constants512 rmd_consts_ok O L)). Qed.
Lemma length5 : forall e : list Z, (length e = 16 \/ length e = 20 \/ length e = 24 \/ length e = 28 \/ length e = 32)%nat ->
  exists q, length e = (4 * q)%nat /\ (4 <= q <= 8)%nat.
Proof. intros e [H|[H|[H|[H|H]]]]; [exists 4%nat|exists 5%nat|exists 6%nat|exists 7%nat|exists 8%nat]; lia. Qed.
Lemma i32_small : forall x, 0 <= x < 2 ^ 31 -> i32 x = x.
Proof. intros x X. unfold i32. rewrite Z.mod_small by lia. rewrite (proj2 (Z.ltb_lt x (2 ^ 31))) by lia. reflexivity. Qed.
Lemma from_entropy : forall K H junk e, fips_constants fips256 K H -> byte_ok junk -> bytes_ok e ->
  (length e = 16 \/ length e = 20 \/ length e = 24 \/ length e = 28 \/ length e = 32)%nat ->
  mnemonicFromEntropy junk e = Ok (Some (bip39_sentence (fips_hash fips256 K H) wordlist e)).
Proof.
  intros K H junk e C J O L. destruct (length5 e L) as (q & Lq & Q). unfold mnemonicFromEntropy.
  rewrite i32_small by (unfold len; lia). rewrite (from_data_eq e q O Lq) by (auto; lia). do 2 f_equal. apply sentence_ext.
  apply sha_fips; auto. unfold len. lia.
Qed.
Lemma from_entropy_other : forall junk e, len e < 2 ^ 31 ->
  ~ (length e = 16 \/ length e = 20 \/ length e = 24 \/ length e = 28 \/ length e = 32)%nat ->
  mnemonicFromEntropy junk e = Ok None.
Proof.
  intros junk e L N. unfold mnemonicFromEntropy. pose proof (len_nonneg _ e). rewrite i32_small by lia. unfold mnemonic_from_data.
  destruct (Z.eqb_spec (len e mod 4) 0) as [M|]; [|reflexivity].
  destruct (Z.ltb_spec (len e) 16) as [|G]; [reflexivity|]. destruct (Z.ltb_spec 32 (len e)) as [|G2]; [reflexivity|].
  exfalso. apply N. unfold len in *. assert (D : exists k, Z.of_nat (length e) = 4 * k /\ 4 <= k <= 8) by (exists (Z.of_nat (length e) / 4); dlia).
  destruct D as (k & D & K). assert (k = 4 \/ k = 5 \/ k = 6 \/ k = 7 \/ k = 8) as KK by lia. lia.
Qed.
Lemma from_data_prefix : forall junk d ln, 0 <= ln <= len d -> mnemonic_from_data junk d ln = mnemonic_from_data junk (firstn (Z.to_nat ln) d) ln.
Proof.
  intros junk d ln R. unfold mnemonic_from_data. destruct (negb (ln mod 4 =? 0) || (ln <? 16) || (32 <? ln)); [reflexivity|].
  rewrite (proj2 (Z.ltb_ge (len d) ln)) by lia. assert (L : len (firstn (Z.to_nat ln) d) = ln) by (unfold len in *; rewrite firstn_length; lia).
  rewrite (proj2 (Z.ltb_ge (len (firstn (Z.to_nat ln) d)) ln)) by lia. rewrite firstn_firstn, Nat.min_id. reflexivity.
Qed.
Lemma gen_hash : forall K H junk n data, fips_constants fips256 K H -> byte_ok junk -> bytes_ok data -> len data < 2 ^ 32 ->
  n = 12 \/ n = 15 \/ n = 18 \/ n = 21 \/ n = 24 ->
  generateMnemonic junk n data =
  Ok (Some (bip39_sentence (fips_hash fips256 K H) wordlist (firstn (Z.to_nat (4 * n / 3)) (fips_hash fips256 K H data)))).
Proof.
  intros K H junk n data C J O L N. rewrite <- (sha_fips K H data) by auto.
  pose proof (sha_len data O L) as LS. pose proof (sha_ok data O L) as OS.
  assert (D : exists q, n * 4 / 3 = Z.of_nat (4 * q) /\ (4 <= q <= 8)%nat /\ (n <? 12) || (24 <? n) || negb (n mod 3 =? 0) = false).
  { destruct N as [->|[->|[->|[->| ->]]]]; [exists 4%nat|exists 5%nat|exists 6%nat|exists 7%nat|exists 8%nat]; (split; [reflexivity|split; [lia|reflexivity]]). }
  destruct D as (q & D & Q & T). unfold generateMnemonic. rewrite T. rewrite (Z.mul_comm 4), D, Nat2Z.id.
  rewrite from_data_prefix by (unfold len; lia). rewrite Nat2Z.id. set (e := firstn (4 * q) (sha256 data)).
  assert (Le : length e = (4 * q)%nat) by (unfold e; rewrite firstn_length; lia).
  assert (Oe : bytes_ok e) by (apply bytes_ok_firstn; auto).
  replace (Z.of_nat (4 * q)) with (len e) by (unfold len; lia).
  rewrite (from_data_eq e q Oe Le) by (auto; lia). do 2 f_equal. apply sentence_ext. apply sha_fips; auto. unfold len. lia.
Qed.
Lemma gen_random : forall K H junk n rnd, fips_constants fips256 K H -> byte_ok junk -> bytes_ok rnd -> length rnd = 32%nat ->
  n = 12 \/ n = 15 \/ n = 18 \/ n = 21 \/ n = 24 ->
  generateMnemonic_random junk rnd n =
  Ok (Some (bip39_sentence (fips_hash fips256 K H) wordlist (firstn (Z.to_nat (4 * n / 3)) rnd))).
Proof.
  intros K H junk n data C J O L N.
  assert (D : exists q, n * 4 / 3 = Z.of_nat (4 * q) /\ (4 <= q <= 8)%nat /\ (n <? 12) || (24 <? n) || negb (n mod 3 =? 0) = false /\
    n * 32 / 3 = 32 * Z.of_nat q).
  { destruct N as [->|[->|[->|[->| ->]]]]; [exists 4%nat|exists 5%nat|exists 6%nat|exists 7%nat|exists 8%nat]; (split; [reflexivity|split; [lia|split; reflexivity]]). }
  destruct D as (q & D & Q & T & S). unfold generateMnemonic_random. rewrite T, S. unfold mnemonic_generate.
  assert (T2 : negb ((32 * Z.of_nat q) mod 32 =? 0) || (32 * Z.of_nat q <? 128) || (256 <? 32 * Z.of_nat q) = false).
  { rewrite Z.mul_comm, Z.mod_mul by lia. cbn [Z.eqb negb orb]. rewrite (proj2 (Z.ltb_ge _ 128)) by lia. apply Z.ltb_ge. lia. }
  rewrite T2. replace (32 * Z.of_nat q / 8) with (Z.of_nat (4 * q)) by (replace (32 * Z.of_nat q) with (Z.of_nat (4 * q) * 8) by lia; symmetry; apply Z.div_mul; lia).
  rewrite (Z.mul_comm 4), D, Nat2Z.id.
  rewrite from_data_prefix by (unfold len; lia). rewrite Nat2Z.id. set (e := firstn (4 * q) data).
  assert (Le : length e = (4 * q)%nat) by (unfold e; rewrite firstn_length; lia).
  assert (Oe : bytes_ok e) by (apply bytes_ok_firstn; auto).
  replace (Z.of_nat (4 * q)) with (len e) by (unfold len; lia).
  rewrite (from_data_eq e q Oe Le) by (auto; lia). do 2 f_equal. apply sentence_ext. apply sha_fips; auto. unfold len. lia.
Qed.
Lemma sentence_spaces : forall e q, bytes_ok e -> length e = (4 * q)%nat -> (4 <= q <= 8)%nat ->
  spaces (bip39_sentence sha256 wordlist e) = Z.of_nat (3 * q) - 1.
Proof.
  intros e q O L Q. rewrite sentence_spell, spell_spaces.
  - unfold len. rewrite (ks_len e q O L) by lia. reflexivity.
  - apply (ks_ok e q O L). lia.
  - intro E. pose proof (ks_len e q O L ltac:(lia)) as X. rewrite E in X. cbn in X. lia.
Qed.
Lemma round_trip : forall junk e, byte_ok junk -> bytes_ok e -> (length e = 16 \/ length e = 24 \/ length e = 32)%nat ->
  exists s, mnemonicFromEntropy junk e = Ok (Some s) /\ checkMnemonic s = Ok true /\
    (forall outLen, len e <= outLen -> mnemonicToEntropy s outLen = Ok e) /\
    (forall outLen, outLen < len e -> mnemonicToEntropy s outLen = Ok []).
Proof.
  intros junk e J O L. destruct (length_q e L) as (q & Lq & C & Q). assert (Q4 : (4 <= q)%nat) by (destruct C as [|[|]]; lia).
  exists (bip39_sentence sha256 wordlist e). split.
  { unfold mnemonicFromEntropy. rewrite i32_small by (unfold len; lia). apply (from_data_eq e q O Lq Q); auto. }
  split; [apply (sentence_check e q O Lq C)|].
  assert (G : forall outLen, mnemonicToEntropy (bip39_sentence sha256 wordlist e) outLen = if outLen <? len e then Ok [] else Ok e).
  { intros outLen. unfold mnemonicToEntropy. rewrite (sentence_spaces e q O Lq) by lia.
    assert (T : (2 ^ 31 <=? (1 + (Z.of_nat (3 * q) - 1)) * 4) = false) by (apply Z.leb_gt; lia). rewrite T.
    assert (EL : (1 + (Z.of_nat (3 * q) - 1)) * 4 / 3 = len e).
    { unfold len. rewrite Lq. replace ((1 + (Z.of_nat (3 * q) - 1)) * 4) with (Z.of_nat (4 * q) * 3) by lia. apply Z.div_mul. lia. }
    rewrite EL. destruct (outLen <? len e); [reflexivity|].
    destruct (sentence_read e q O Lq C) as (bits & E & _ & E1 & _). rewrite E. cbn [bind].
    rewrite (proj2 (Z.ltb_ge 33 (len e))) by (unfold len; lia). unfold len. rewrite Nat2Z.id, Lq, E1. reflexivity. }
  split; intros outLen X; rewrite G; [rewrite (proj2 (Z.ltb_ge _ _) X)|rewrite (proj2 (Z.ltb_lt _ _) X)]; reflexivity.
Qed.
Lemma words_15_21 : forall junk e, byte_ok junk -> bytes_ok e -> (length e = 20 \/ length e = 28)%nat ->
  exists s, mnemonicFromEntropy junk e = Ok (Some s) /\ checkMnemonic s = Ok false /\
    forall outLen, mnemonicToEntropy s outLen = Ok [].
Proof.
  intros junk e J O L. assert (D : exists q, length e = (4 * q)%nat /\ (q = 5 \/ q = 7)%nat) by (destruct L; [exists 5%nat|exists 7%nat]; lia).
  destruct D as (q & Lq & Q). exists (bip39_sentence sha256 wordlist e). split.
  { unfold mnemonicFromEntropy. rewrite i32_small by (unfold len; lia). apply (from_data_eq e q O Lq); auto; lia. }
  assert (N : mnemonic_to_entropy (bip39_sentence sha256 wordlist e) = Ok None).
  { unfold mnemonic_to_entropy. rewrite (sentence_spaces e q O Lq) by lia. destruct Q as [->| ->]; reflexivity. }
  split; [unfold checkMnemonic, mnemonic_check; rewrite N; reflexivity|].
  intros outLen. unfold mnemonicToEntropy. rewrite N. rewrite (sentence_spaces e q O Lq) by lia.
  rewrite (proj2 (Z.leb_gt (2 ^ 31) _)) by lia. destruct (outLen <? _); reflexivity.
Qed.
Lemma spaces_le : forall s, spaces s <= len s.
Proof. induction s; [cbn; lia|]. cbn [spaces]. rewrite len_cons. destruct (a =? 32); lia. Qed.
Lemma exact_acceptance : forall K H s, fips_constants fips256 K H -> len s < 2 ^ 32 - 1 ->
  checkMnemonic s = Ok true <->
  exists e, bytes_ok e /\ (length e = 16 \/ length e = 24 \/ length e = 32)%nat /\ s = bip39_sentence (fips_hash fips256 K H) wordlist e.
Proof.
  intros K H s C L. pose proof (spaces_le s). split.
  - intro E. apply check_sentence in E; [|lia]. destruct E as (e & O & Le & ->). exists e. split; auto. split; auto.
    apply sentence_ext. apply sha_fips; auto. unfold len. lia.
  - intros (e & O & Le & ->). destruct (length_q e Le) as (q & Lq & Cq & Q).
    rewrite <- (sentence_ext sha256) by (apply sha_fips; auto; unfold len; lia). apply (sentence_check e q O Lq Cq).
Qed.
Lemma check_defined : forall s, len s < 2 ^ 32 - 1 -> exists b, checkMnemonic s = Ok b.
Proof.
  intros s L. pose proof (spaces_le s). destruct (to_entropy_sound s ltac:(lia)) as [E|(ks0 & q & F & Lk & C & ->)].
  - exists false. unfold checkMnemonic, mnemonic_check. rewrite E. reflexivity.
  - destruct (to_entropy_spell ks0 q F Lk C) as (bits & E & Hb). eexists. apply (check_spell ks0 q bits F Lk C E Hb).
Qed.
Lemma to_entropy_defined : forall s outLen, len s < 2 ^ 29 - 1 -> exists e, mnemonicToEntropy s outLen = Ok e /\ (e = [] \/ len e <= outLen).
Proof.
  intros s outLen L. pose proof (spaces_le s). pose proof (spaces_nonneg s). unfold mnemonicToEntropy.
  rewrite (proj2 (Z.leb_gt (2 ^ 31) _)) by lia.
  destruct (Z.ltb_spec outLen ((1 + spaces s) * 4 / 3)) as [|G]; [eauto|].
  destruct (to_entropy_sound s ltac:(lia)) as [E|(ks0 & q & F & Lk & C & Es)]; [rewrite E; cbn [bind]; eauto|].
  assert (Sp : spaces s = Z.of_nat (3 * q) - 1).
  { rewrite Es, spell_spaces; auto; [unfold len; lia|]. destruct ks0; [|discriminate]. destruct C as [|[|]]; cbn in Lk; lia. }
  destruct (to_entropy_spell ks0 q F Lk C) as (bits & E & Hb). rewrite Es in *. rewrite E. cbn [bind]. rewrite Sp in *.
  assert (EL : (1 + (Z.of_nat (3 * q) - 1)) * 4 / 3 = Z.of_nat (4 * q)).
  { replace ((1 + (Z.of_nat (3 * q) - 1)) * 4) with (Z.of_nat (4 * q) * 3) by lia. apply Z.div_mul. lia. }
  rewrite EL in *. rewrite (proj2 (Z.ltb_ge 33 _)) by (destruct C as [|[|]]; lia). eexists. split; [reflexivity|]. right.
  rewrite Nat2Z.id. unfold len. rewrite firstn_length. lia.
Qed.
(** Any 12, 18 or 24 words of the list are turned into bytes, whatever the checksum. *)
Lemma no_checksum : forall ks q outLen, Forall idx_ok ks -> length ks = (3 * q)%nat -> count_ok q -> 32 <= outLen ->
  exists e, mnemonicToEntropy (spell ks) outLen = Ok e /\ length e = (4 * q)%nat.
Proof.
  intros ks0 q outLen F Lk C B. assert (NE : ks0 <> []) by (destruct ks0; [destruct C as [|[|]]; cbn in Lk; lia|discriminate]).
  assert (Q : (q <= 8)%nat) by (destruct C as [|[|]]; lia).
  unfold mnemonicToEntropy. rewrite (spell_spaces ks0 F NE). unfold len. rewrite Lk.
  rewrite (proj2 (Z.leb_gt (2 ^ 31) _)) by lia.
  assert (EL : (1 + (Z.of_nat (3 * q) - 1)) * 4 / 3 = Z.of_nat (4 * q)).
  { replace ((1 + (Z.of_nat (3 * q) - 1)) * 4) with (Z.of_nat (4 * q) * 3) by lia. apply Z.div_mul. lia. }
  rewrite EL. rewrite (proj2 (Z.ltb_ge outLen _)) by lia.
  destruct (to_entropy_spell ks0 q F Lk C) as (bits & E & Hb). rewrite E. cbn [bind].
  rewrite (proj2 (Z.ltb_ge 33 _)) by lia. eexists. split; [reflexivity|]. rewrite Nat2Z.id, firstn_length, (entropy_len _ _ q Lk Q Hb). lia.
Qed.

(** ** The seed cache *)
Definition seed_of (junk m p : list Z) : outcome (list Z) := mnemonic_to_seed junk m p.
Definition cache_ok (c : seed_cache) : Prop :=
  0 <= fst c < 4 /\ length (snd c) = 4%nat /\
  Forall (fun e => ce_set e = true -> forall junk, length junk = 128%nat -> mnemonic_to_seed junk (ce_mnemonic e) (ce_passphrase e) = Ok (ce_seed e)) (snd c).
Lemma cache_find_ok : forall l m p seed,
  Forall (fun e => ce_set e = true -> forall junk, length junk = 128%nat -> mnemonic_to_seed junk (ce_mnemonic e) (ce_passphrase e) = Ok (ce_seed e)) l ->
  cache_find l m p = Some seed -> forall junk, length junk = 128%nat -> mnemonic_to_seed junk m p = Ok seed.
Proof.
  induction l as [|e l IH]; intros m p seed F H junk J; cbn [cache_find] in H; [discriminate|].
  pose proof (Forall_inv F) as Fe. cbv beta in Fe.
  destruct (ce_set e) eqn:S; cbn [andb] in H; [|exact (IH m p seed (Forall_inv_tail F) H junk J)].
  destruct (list_eq_dec Z.eq_dec (ce_mnemonic e) m) as [Em|]; cbn [andb] in H; [|exact (IH m p seed (Forall_inv_tail F) H junk J)].
  destruct (list_eq_dec Z.eq_dec (ce_passphrase e) p) as [Ep|]; [|exact (IH m p seed (Forall_inv_tail F) H junk J)].
  apply (f_equal (fun o => match o with Some x => x | None => [] end)) in H. cbv beta iota in H. subst. auto.
Qed.
Lemma cache_put_ok : forall (P : centry -> Prop) l i e, Forall P l -> P e -> Forall P (cache_put l i e) /\ length (cache_put l i e) = length l.
Proof.
  intros P. induction l as [|x l IH]; intros i e F E; destruct i; cbn [cache_put]; auto.
  - split; [constructor; auto; exact (Forall_inv_tail F)|reflexivity].
  - destruct (IH i e (Forall_inv_tail F) E) as [A B]. split; [constructor; auto; exact (Forall_inv F)|cbn [length]; auto].
Qed.
Lemma seed_calls_ok : forall K H calls c, fips_constants fips512 K H -> cache_ok c ->
  Forall (fun call => let '(junk, m, p) := call in length junk = 128%nat /\ bytes_ok m /\ bytes_ok p /\ len m < 2 ^ 32 /\ len p <= 256) calls ->
  seed_calls c calls = Ok (map (fun call => let '(_, m, p) := call in
    rfc8018 (rfc2104 (fips_hash fips512 K H) 128) 64 m (chars "mnemonic" ++ p) 2048 64) calls).
Proof.
  intros K H. induction calls as [|[[junk m] p] calls IH]; intros c C Hc F; [reflexivity|].
  pose proof (Forall_inv F) as (J & Om & Op & Lm & Lp). cbv beta iota in *.
  cbn [seed_calls map]. set (seed := rfc8018 (rfc2104 (fips_hash fips512 K H) 128) 64 m (chars "mnemonic" ++ p) 2048 64).
  assert (E : forall j, length j = 128%nat -> mnemonic_to_seed j m p = Ok seed) by (intros; apply to_seed_eq; auto).
  clearbody seed.
  assert (G : exists c', mnemonic_to_seed_cached junk c m p = Ok (seed, c') /\ cache_ok c').
  { unfold mnemonic_to_seed_cached. pose proof Hc as Hc0. destruct Hc as (Hi & Hl & Hf).
    destruct ((len m <? 256) && (len p <? 64)) eqn:S.
    - destruct (cache_find (snd c) m p) as [sd|] eqn:Cf.
      + pose proof (cache_find_ok _ _ _ _ Hf Cf junk J) as X. rewrite E in X by auto.
        apply (f_equal (fun o => match o with Ok x => x | UB => [] end)) in X. cbv beta iota in X. rewrite X. exists c. split; [reflexivity|exact Hc0].
      + rewrite E by auto. cbn [bind]. eexists. split; [reflexivity|]. split; [cbn [fst]; apply Z.mod_pos_bound; lia|].
        cbn [snd]. destruct (cache_put_ok _ (snd c) (Z.to_nat (fst c)) (mkCe true m p seed) Hf) as [A B]; [cbn; intros _; exact E|].
        split; [rewrite B; auto|exact A].
    - rewrite E by auto. cbn [bind]. exists c. split; [reflexivity|exact Hc0]. }
  destruct G as (c' & -> & Hc'). cbn [bind fst snd]. pose proof (IH c' C Hc' (Forall_inv_tail F)) as I. rewrite I. cbn [bind]. reflexivity.
Qed.
Lemma cache0_ok : cache_ok seed_cache0.
Proof. split; [cbn; lia|]. split; [reflexivity|]. unfold seed_cache0. cbn [snd]. apply Forall_forall. intros e I. apply repeat_spec in I. rewrite I. intros X. discriminate X. Qed.
Lemma wordlist_facts : len wordlist = 2048 /\ NoDup wordlist /\ NoDup (map (firstn 4) wordlist) /\
  forall w, In w wordlist -> 3 <= len w <= 8 /\ Forall (fun c => 97 <= c <= 122) w.
Proof.
  split; [exact wl_len|]. split; [exact wl_nodup|]. split; [exact (increasing_nodup _ wl_prefixes)|].
  intros w W. destruct (wl_word w W) as [_ L]. split; [exact (wl_sizes w W)|].
  apply Forall_forall. intros c C. unfold letters in L. rewrite forallb_forall in L. apply L in C.
  apply andb_prop in C as [C1 C2]. apply Z.leb_le in C1, C2. auto.
Qed.
#[local] Transparent sha256 wordlist.
Lemma bad_sentence : let s := chars "abandon abandon abandon abandon abandon abandon abandon abandon abandon abandon abandon abandon" in
  checkMnemonic s = Ok false /\ mnemonicToEntropy s 32 = Ok (zeros 16).
Proof. vm_compute. split; reflexivity. Qed.
#[local] Opaque sha256 wordlist.
Lemma generated_ok : forall junk n data, byte_ok junk -> bytes_ok data -> len data < 2 ^ 32 ->
  n = 12 \/ n = 18 \/ n = 24 ->
  exists s, generateMnemonic junk n data = Ok (Some s) /\ checkMnemonic s = Ok true.
Proof.
  intros junk n data J O L N. eexists. split; [apply (gen_hash K256 H256); auto using constants256; tauto|].
  assert (OH : bytes_ok (fips_hash fips256 K256 H256 data)) by (rewrite <- sha_fips by auto using constants256; apply sha_ok; auto).
  assert (LH : length (fips_hash fips256 K256 H256 data) = 32%nat) by (rewrite <- sha_fips by auto using constants256; apply sha_len; auto).
  set (e := firstn _ _).
  assert (Oe : bytes_ok e) by (apply bytes_ok_firstn; auto).
  assert (Le : (length e = 16 \/ length e = 24 \/ length e = 32)%nat).
  { unfold e. rewrite firstn_length, LH. destruct N as [->|[->| ->]]; [left|right; left|right; right]; reflexivity. }
  destruct (length_q e Le) as (q & Lq & Cq & Q).
  rewrite <- (sentence_ext sha256) by (apply sha_fips; auto using constants256; unfold len; lia).
  apply (sentence_check e q Oe Lq Cq).
Qed.
