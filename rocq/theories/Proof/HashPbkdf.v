(** PBKDF2: the block loop of pbkdf2.c and the loop of HDWallet.cpp are RFC 8018. *)
From Verif Require Import Base.Bytes Base.BytesFacts Base.Groups Spec.Codecs Spec.Hash.
From Verif Require Import Model.Hash Proof.IntVarint Proof.HashWords Proof.HashSha Proof.HashInst Proof.HashMac.
Require Import Lia.
Open Scope Z_scope.

Lemma map2_xor : forall a b, map2 Z.lxor a b = xor_bytes a b.
Proof. induction a; destruct b; cbn; auto. f_equal. apply IHa. Qed.
Lemma xor_rev : forall a b, length a = length b -> rev (xor_bytes a b) = xor_bytes (rev a) (rev b).
Proof.
  unfold xor_bytes. induction a; intros [|y b] L; try discriminate; [reflexivity|].
  injection L as L. cbn [rev combine map fst snd]. rewrite IHa by auto.
  rewrite combine_app2 by (rewrite !rev_length; auto). rewrite map_app. reflexivity.
Qed.
Lemma be_le : forall l, be_val 256 l = le_val 256 (rev l).
Proof. intros. rewrite le_val_be_val, rev_involutive. auto. Qed.
Lemma be_xor : forall a b, bytes_ok a -> bytes_ok b -> length a = length b ->
  Z.lxor (be_val 256 a) (be_val 256 b) = be_val 256 (xor_bytes a b).
Proof.
  intros a b Oa Ob L. rewrite !be_le. rewrite le_lxor.
  - rewrite map2_xor, xor_rev; auto.
  - apply bytes_ok_rev. auto.
  - apply bytes_ok_rev. auto.
  - rewrite !rev_length. auto.
Qed.
Lemma xor_app : forall a b c d, length a = length b -> xor_bytes (a ++ c) (b ++ d) = xor_bytes a b ++ xor_bytes c d.
Proof. intros. unfold xor_bytes. rewrite combine_app2 by auto. apply map_app. Qed.
Lemma words_xor : forall n q a b, (0 < n)%nat -> length a = (q * n)%nat -> length b = (q * n)%nat -> bytes_ok a -> bytes_ok b ->
  map (fun xy => Z.lxor (fst xy) (snd xy)) (combine (map (be_val 256) (groups n a)) (map (be_val 256) (groups n b)))
  = map (be_val 256) (groups n (xor_bytes a b)).
Proof.
  intros n q. induction q; intros a b Hn La Lb Oa Ob.
  { destruct a; [|cbn in La; lia]. destruct b; [|cbn in Lb; lia]. reflexivity. }
  rewrite <- (firstn_skipn n a), <- (firstn_skipn n b).
  assert (LA : length (firstn n a) = n) by (rewrite firstn_length; lia).
  assert (LB : length (firstn n b) = n) by (rewrite firstn_length; lia).
  rewrite xor_app by congruence.
  rewrite (groups_cons _ n (firstn n a)) by auto. rewrite (groups_cons _ n (firstn n b)) by auto.
  rewrite (groups_cons _ n (xor_bytes _ _)) by (auto; rewrite xor_len by congruence; auto).
  cbn [map combine fst snd]. rewrite be_xor by (auto using bytes_ok_firstn; congruence).
  f_equal. apply IHq; auto using bytes_ok_skipn; rewrite skipn_length; lia.
Qed.
Lemma groups_repeat : forall n q b, (0 < n)%nat -> @groups Z n (repeat b (q * n)) = repeat (repeat b n) q.
Proof.
  intros n q b Hn. induction q; [reflexivity|]. cbn [Nat.mul repeat]. rewrite repeat_app.
  rewrite groups_cons by (auto; apply repeat_length). congruence.
Qed.
Lemma map_const_combine : forall (f : Z -> Z -> Z) c l n, length l = n ->
  map (fun x => f x c) l = map (fun xy => f (fst xy) (snd xy)) (combine l (repeat c n)).
Proof. intros f c l n <-. induction l; [auto|]. cbn [length repeat combine map fst snd]. congruence. Qed.
Lemma rev_repeat : forall (b : Z) n, rev (repeat b n) = repeat b n.
Proof.
  induction n; [reflexivity|]. cbn [repeat rev]. rewrite IHn. clear.
  induction n; [reflexivity|]. cbn [repeat app]. congruence.
Qed.
Lemma pow_lin : forall n, (0 < n)%nat -> 192 * Z.of_nat n < 256 ^ Z.of_nat n.
Proof.
  induction n; [lia|]. intros _. destruct n; [cbn; lia|]. specialize (IHn ltac:(lia)).
  rewrite Nat2Z.inj_succ, Z.pow_succ_r by lia. lia.
Qed.
Lemma lxor_twice : forall x a b, Z.lxor (Z.lxor (Z.lxor x a) a) b = Z.lxor x b.
Proof. intros. rewrite (Z.lxor_assoc x a a), Z.lxor_nilpotent, Z.lxor_0_r. auto. Qed.

Section Pb.
Variables (p : sha2) (F : fips) (cnt : Z * Z -> Z -> Prop) (lim : Z).
Hypothesis G : sha_good p F cnt lim.
Notation hash := (fips_hash F (s_K p) (s_H p)).
Notation B := (block_len p).
Notation nb := (s_bytes p).
Notation H0 := (s_H p).
Notation comp := (fips_block F (s_K p)).
Notation words l := (map (be_val 256) (groups nb l)).
Notation ipad := (ipad p F).
Notation opad := (opad p F).
Notation prf := (rfc2104 hash B).

Lemma nb_pos : (0 < nb)%nat. Proof. destruct G. auto. Qed.
Lemma block_comp : forall st l, regs_ok F st -> bytes_ok l -> length l = B ->
  sha2_Transform p st (words l) = comp st l /\ regs_ok F (comp st l).
Proof. intros. destruct G. eapply block_eq; eauto. Qed.
Lemma H0_ok : regs_ok F H0. Proof. destruct G. auto. Qed.

Lemma rep_word_be : forall b, rep_word p b = be_val 256 (repeat b nb).
Proof. intros. unfold rep_word. rewrite le_val_be_val, rev_repeat. auto. Qed.
Lemma words_const : forall q l b, byte_ok b -> length l = (q * nb)%nat -> bytes_ok l ->
  map (fun x => Z.lxor x (rep_word p b)) (words l) = words (xor_bytes l (repeat b (q * nb))).
Proof.
  intros q l b Hb L O. pose proof nb_pos as N.
  rewrite <- (words_xor nb q) by (auto using repeat_length, pad_ok).
  rewrite groups_repeat by auto.
  assert (E : map (be_val 256) (repeat (repeat b nb) q) = repeat (rep_word p b) q).
  { rewrite rep_word_be. clear. induction q; cbn; congruence. }
  rewrite E. apply (map_const_combine Z.lxor). rewrite map_length. apply groups_all; auto.
Qed.

Lemma rev_mem : forall q l, bytes_ok l -> length l = (q * nb)%nat -> map (s_rev p) (mem_words nb l) = words l.
Proof. intros. destruct G. eapply rev_words; eauto. Qed.

Lemma prepare_eq : forall key, bytes_ok key -> len key < 2 ^ 32 ->
  hmac_prepare p key = (comp H0 (opad key), comp H0 (ipad key)).
Proof.
  intros key O L. unfold hmac_prepare. rewrite (hmac_key_eq p F cnt lim G) by auto. rewrite trunc32_id by auto.
  destruct (key_len p F cnt lim G key O) as [LK OK].
  destruct (pads p F cnt lim G key O) as (Li & Oi & Lo & Oo).
  assert (E1 : map (fun x => Z.lxor (s_rev p x) (rep_word p 92)) (mem_words nb (rfc2104_key hash B key)) = words (opad key)).
  { rewrite <- (map_map (s_rev p) (fun x => Z.lxor x (rep_word p 92))). rewrite (rev_mem 16) by auto.
    rewrite (words_const 16) by (auto; unfold byte_ok; lia). reflexivity. }
  rewrite E1.
  assert (E2 : map (fun x => Z.lxor (Z.lxor x (rep_word p 92)) (rep_word p 54)) (words (opad key)) = words (ipad key)).
  { rewrite <- E1, map_map. unfold ipad. change B with (16 * nb)%nat at 3.
    rewrite <- (words_const 16) by (auto; unfold byte_ok; lia).
    rewrite <- (rev_mem 16) by auto. rewrite map_map. apply map_ext. intros. apply lxor_twice. }
  rewrite E2. f_equal; apply block_comp; auto using H0_ok.
Qed.

(** The padding of a message made of one block and one digest. *)
Definition tl_ : list Z := ([128] ++ zeros (nb - 1)) ++ zeros (6 * nb) ++ be_bytes nb (8 * Z.of_nat (B + 8 * nb)).
Lemma tl_len : length tl_ = (8 * nb)%nat.
Proof.
  unfold tl_. rewrite !app_length, !zeros_length, be_bytes_length. pose proof nb_pos. cbn [length]. lia.
Qed.
Lemma tl_ok : bytes_ok tl_.
Proof.
  unfold tl_. rewrite !bytes_ok_app. split; [split|split]; auto using bytes_ok_zeros, be_bytes_ok.
  constructor; [unfold byte_ok; lia|constructor].
Qed.
Lemma pad_tl : forall m, length m = (B + 8 * nb)%nat -> md_pad B (2 * nb) be_bytes m = m ++ tl_.
Proof.
  intros m L. unfold md_pad, tl_. pose proof nb_pos as N. rewrite <- !app_assoc. do 2 f_equal.
  assert (E : (- (len m + 1 + Z.of_nat (2 * nb))) mod Z.of_nat B = Z.of_nat (6 * nb - 1)).
  { rewrite len_nat, L. rewrite <- (Z.mod_add _ 2) by (change B with (16 * nb)%nat; lia).
    rewrite Z.mod_small; change B with (16 * nb)%nat; lia. }
  rewrite E, Nat2Z.id. rewrite len_nat, L.
  assert (E2 : be_bytes (2 * nb) (8 * Z.of_nat (B + 8 * nb)) = zeros nb ++ be_bytes nb (8 * Z.of_nat (B + 8 * nb))).
  { unfold be_bytes. replace (2 * nb)%nat with (nb + nb)%nat by lia. rewrite le_bytes_app, rev_app_distr. f_equal.
    rewrite Z.div_small.
    - generalize nb. clear. intro n.
      assert (E0 : forall n, le_bytes n 0 = zeros n) by (induction n0; [reflexivity|]; cbn [le_bytes]; rewrite Zdiv_0_l, IHn0; reflexivity).
      rewrite E0. apply rev_repeat.
    - pose proof (pow_lin nb N). change B with (16 * nb)%nat. lia. }
  rewrite E2. rewrite !app_assoc. f_equal. unfold zeros. rewrite <- !repeat_app. f_equal. lia.
Qed.
Lemma words_tl : words tl_ = [2 ^ (s_w p - 1)] ++ zeros 6 ++ [Z.of_nat (B + 8 * nb) * 8].
Proof.
  pose proof nb_pos as N. unfold tl_.
  rewrite (groups_cons _ nb) by (auto; rewrite app_length, zeros_length; cbn [length]; lia).
  rewrite (groups_app _ nb 6) by (auto; apply zeros_length).
  unfold zeros at 2. rewrite groups_repeat by auto.
  rewrite (groups_one _ nb (be_bytes nb _)) by (auto; apply be_bytes_length).
  assert (Z0 : be_val 256 (repeat 0 nb) = 0).
  { rewrite <- rep_word_be. unfold rep_word. change (repeat 0 nb) with ([] ++ zeros nb). rewrite le_zeros. reflexivity. }
  cbn [repeat app map]. rewrite Z0.
  assert (E1 : be_val 256 (128 :: zeros (nb - 1)) = 2 ^ (s_w p - 1)).
  { rewrite be_val_cons, be_val_zeros0.
    rewrite len_zeros. destruct G. rewrite gw, gb.
    replace (8 * Z.of_nat nb - 1) with (8 * Z.of_nat (nb - 1) + 7) by lia.
    rewrite Z.pow_add_r, Z.pow_mul_r by lia. change (2 ^ 8) with 256. change (2 ^ 7) with 128. ring. }
  rewrite E1. rewrite be_val_be_bytes, Z.mod_small.
  - cbn [zeros repeat app]. do 8 f_equal. ring.
  - pose proof (pow_lin nb N). change B with (16 * nb)%nat. lia.
Qed.
Lemma words_split : forall U, length U = (8 * nb)%nat -> words (U ++ tl_) = words U ++ words tl_.
Proof. intros U L. rewrite (groups_app _ nb 8) by (auto using nb_pos). apply map_app. Qed.
Lemma regs_words : forall st, regs_ok F st -> words (flat_map (be_bytes nb) st) = st.
Proof.
  intros st [_ O]. pose proof nb_pos as N. induction O as [|x st Hx O IH]; [reflexivity|].
  cbn [flat_map]. rewrite (groups_cons _ nb) by (auto; apply be_bytes_length). cbn [map]. rewrite IH. f_equal.
  rewrite be_val_be_bytes. apply Z.mod_small. destruct G. unfold word_ok in Hx. rewrite gb in Hx.
  rewrite Z.pow_mul_r in Hx by lia. exact Hx.
Qed.
Lemma hash_two : forall pad U, length pad = B -> bytes_ok pad -> length U = (8 * nb)%nat -> bytes_ok U ->
  hash (pad ++ U) = flat_map (be_bytes nb) (comp (comp H0 pad) (U ++ tl_)).
Proof.
  intros pad U Lp Op LU OU. pose proof nb_pos as N.
  assert (E : hash (pad ++ U) = flat_map (be_bytes nb) (fold_left comp (groups B (fips_pad p (pad ++ U))) H0)).
  { destruct G. apply fips_hash_pad; auto. }
  rewrite E. unfold fips_pad. rewrite pad_tl by (rewrite app_length; lia). rewrite <- app_assoc.
  assert (NB : (0 < B)%nat) by (change B with (16 * nb)%nat; lia).
  rewrite (groups_cons _ B pad) by auto. rewrite (groups_one _ B (U ++ tl_)); auto.
  rewrite app_length, tl_len, LU. change B with (16 * nb)%nat. lia.
Qed.
Lemma step_eq : forall pad U, length pad = B -> bytes_ok pad -> length U = (8 * nb)%nat -> bytes_ok U ->
  pb_step p (comp H0 pad) (words (U ++ tl_)) = words (hash (pad ++ U) ++ tl_).
Proof.
  intros pad U Lp Op LU OU. pose proof nb_pos as N. unfold pb_step.
  destruct (block_comp H0 pad H0_ok Op Lp) as [_ R1].
  assert (LB : length (U ++ tl_) = B) by (rewrite app_length, tl_len, LU; change B with (16 * nb)%nat; lia).
  assert (OB : bytes_ok (U ++ tl_)) by (apply bytes_ok_app; auto using tl_ok).
  destruct (block_comp (comp H0 pad) (U ++ tl_) R1 OB LB) as [E R2]. rewrite E.
  assert (OM : bytes_ok (pad ++ U)) by (apply bytes_ok_app; auto).
  rewrite (words_split (hash _)) by (apply (hash_len p F cnt lim G); auto).
  rewrite hash_two by auto. rewrite regs_words by auto. f_equal.
  rewrite words_split by auto. apply skipn_app_len. rewrite map_length. symmetry. apply groups_all; auto.
Qed.
Lemma prf_eq : forall key U, bytes_ok key -> length U = (8 * nb)%nat -> bytes_ok U ->
  pb_step p (comp H0 (opad key)) (pb_step p (comp H0 (ipad key)) (words (U ++ tl_))) = words (prf key U ++ tl_).
Proof.
  intros key U O LU OU. destruct (pads p F cnt lim G key O) as (Li & Oi & Lo & Oo).
  rewrite step_eq by auto. rewrite step_eq; auto.
  - apply (hash_len p F cnt lim G). apply bytes_ok_app; auto.
  - apply (hash_ok p F cnt lim G).
Qed.

(** * The running state *)
Section Key.
Variable key : list Z.
Hypothesis Ok : bytes_ok key.
Hypothesis Lk : len key < 2 ^ 32.
Definition pbs (f U : list Z) (first : Z) : pbctx :=
  mkPb (comp H0 (opad key)) (comp H0 (ipad key)) (words f) (words (U ++ tl_)) first.
Definition dig (U : list Z) : Prop := length U = (8 * nb)%nat /\ bytes_ok U.
Lemma prf_dig : forall U, bytes_ok U -> dig (prf key U).
Proof. intros. apply (rfc2104_len p F cnt lim G); auto. Qed.
Lemma xor_dig : forall a b, dig a -> dig b -> dig (xor_bytes a b).
Proof. intros a b [La Oa] [Lb Ob]. split; [rewrite xor_len; congruence|apply xor_ok; auto]. Qed.

Lemma iter_eq : forall f U first, dig f -> dig U ->
  pb_iter p (pbs f U first) = pbs (xor_bytes f (prf key U)) (prf key U) first.
Proof.
  intros f U first [Lf Of] [LU OU]. unfold pb_iter, pbs. cbn [pb_odig pb_idig pb_f pb_g pb_first].
  rewrite prf_eq by auto. f_equal. pose proof nb_pos as N.
  destruct (prf_dig U OU) as [LP OP].
  rewrite <- (words_xor nb 8) by auto. rewrite words_split by auto.
  f_equal. assert (E : length (words f) = length (words (prf key U))).
  { rewrite !map_length. destruct (groups_all _ nb 8 f N Lf) as [A1 _]. destruct (groups_all _ nb 8 (prf key U) N LP) as [A2 _]. congruence. }
  revert E. generalize (words f) (words (prf key U)) (words tl_). clear.
  induction l; intros [|b l2] t E; try discriminate; [reflexivity|]. cbn [combine app]. f_equal. apply IHl. cbn [length] in E. lia.
Qed.
Notation us := (rfc8018_us prf).
Fixpoint last_u (n : nat) (U : list Z) : list Z := match n with O => U | S n' => last_u n' (prf key U) end.
Lemma last_dig : forall n U, dig U -> dig (last_u n U).
Proof. induction n; intros U D; cbn [last_u]; auto. apply IHn. apply prf_dig. apply D. Qed.
Lemma us_dig : forall n U f, dig U -> dig f -> dig (fold_left xor_bytes (us n key U) f).
Proof.
  induction n; intros U f DU Df; cbn [rfc8018_us fold_left]; auto. apply IHn; auto using xor_dig. apply prf_dig. apply DU.
Qed.
Lemma iters : forall n f U first, dig f -> dig U ->
  Nat.iter n (pb_iter p) (pbs f U first) = pbs (fold_left xor_bytes (us n key (prf key U)) f) (last_u n U) first.
Proof.
  assert (C : forall n c, Nat.iter n (pb_iter p) (pb_iter p c) = pb_iter p (Nat.iter n (pb_iter p) c)).
  { induction n; intros; cbn [Nat.iter nat_rect]; auto. cbn. f_equal. apply IHn. }
  induction n; intros f U first Df DU; [reflexivity|].
  change (Nat.iter (S n) (pb_iter p) (pbs f U first)) with (pb_iter p (Nat.iter n (pb_iter p) (pbs f U first))).
  rewrite <- C, iter_eq by auto. cbn [rfc8018_us fold_left last_u].
  assert (D1 : dig (prf key U)) by (apply prf_dig; apply DU). rewrite IHn; auto. apply xor_dig; auto.
Qed.
Lemma last_add : forall n m U, last_u (n + m) U = last_u m (last_u n U).
Proof. induction n; intros; cbn [last_u Nat.add]; auto. Qed.
Lemma us_add : forall n m U, us (n + m) key U = us n key U ++ us m key (last_u n U).
Proof. induction n; intros; cbn [last_u Nat.add rfc8018_us app]; auto. f_equal. auto. Qed.
Lemma last_S : forall n U, last_u n (prf key U) = prf key (last_u n U).
Proof.
  induction n; intros U; [reflexivity|]. unfold last_u; fold last_u. exact (IHn (prf key U)).
Qed.

Lemma Init_eq : forall junk salt i, length junk = B -> bytes_ok salt -> len salt < 2 ^ 60 -> 0 <= i < 2 ^ 32 ->
  let U1 := prf key (salt ++ be_bytes 4 i) in
  pbkdf2_Init p junk key salt i = pbs U1 U1 1.
Proof.
  intros junk salt i Lj Os Ls Hi. cbv zeta. unfold pbkdf2_Init. rewrite prepare_eq by auto.
  destruct (pads p F cnt lim G key Ok) as (Li & Oi & Lo & Oo). pose proof nb_pos as N.
  pose proof (B32 p F cnt lim G) as B32. pose proof (LIM p F cnt lim G) as LM. change (2 ^ 61) with (2 * 2 ^ 60) in LM.
  assert (P60 : 2 ^ 32 < 2 ^ 59) by (change (2 ^ 59) with (2 ^ 27 * 2 ^ 32); lia).
  assert (P59 : 2 ^ 60 = 2 * 2 ^ 59) by reflexivity.
  set (c := mkHctx _ _ junk).
  assert (R : grep p F cnt H0 c (ipad key)).
  { unfold grep. constructor; auto.
    - exists (ipad key), [], 1%nat. rewrite app_nil_r. split; auto. split; [lia|]. split; [cbn [length]; change B with (16 * nb)%nat; lia|].
      split; [|reflexivity]. cbn [h_state c]. rewrite (groups_one _ B) by (auto; change B with (16 * nb)%nat; lia). reflexivity.
    - cbn [h_count c]. rewrite len_nat, Li. destruct G. auto.
    - apply H0_ok. }
  assert (E4 : mem_bytes 4 (REVERSE32 i) = be_bytes 4 i).
  { apply rev_store; [apply REVERSE32_le|]. change (256 ^ Z.of_nat 4) with (2 ^ 32). lia. }
  rewrite E4.
  assert (R1 : grep p F cnt H0 (sha2_Update p c salt) (ipad key ++ salt)).
  { eapply gUpdate; eauto; rewrite ?len_app, ?(len_nat (ipad key)), ?Li; try lia. }
  assert (R2 : grep p F cnt H0 (sha2_Update p (sha2_Update p c salt) (be_bytes 4 i)) ((ipad key ++ salt) ++ be_bytes 4 i)).
  { eapply gUpdate; eauto using be_bytes_ok; rewrite ?len_app, ?(len_nat (ipad key)), ?(len_nat (be_bytes 4 i)), ?Li, ?be_bytes_length; lia. }
  rewrite (gFinal p F cnt lim G _ _ R2).
  2:{ rewrite !len_app, (len_nat (ipad key)), (len_nat (be_bytes 4 i)), Li, be_bytes_length. lia. }
  rewrite <- app_assoc. set (D := hash (ipad key ++ salt ++ be_bytes 4 i)).
  assert (OM : bytes_ok (ipad key ++ salt ++ be_bytes 4 i)) by (rewrite !bytes_ok_app; auto using be_bytes_ok).
  assert (LD : length D = (8 * nb)%nat) by (apply (hash_len p F cnt lim G); auto).
  assert (OD : bytes_ok D) by apply (hash_ok p F cnt lim G).
  rewrite (rev_mem 8) by auto. rewrite <- words_tl. rewrite <- words_split by auto. rewrite step_eq by auto.
  unfold pbs. fold (prf key (salt ++ be_bytes 4 i)).
  change (hash (opad key ++ D)) with (prf key (salt ++ be_bytes 4 i)).
  f_equal. rewrite words_split.
  - apply firstn_app_len. rewrite map_length. symmetry. apply groups_all; auto.
    apply prf_dig. apply bytes_ok_app; auto using be_bytes_ok.
  - apply prf_dig. apply bytes_ok_app; auto using be_bytes_ok.
Qed.
Lemma Final_eq : forall f U first, dig f -> pbkdf2_Final p (pbs f U first) = f.
Proof.
  intros f U first [L O]. unfold pbkdf2_Final, pbs. cbn [pb_f]. pose proof nb_pos as N.
  destruct (groups_all _ nb 8 f N L) as (A & A2 & A3).
  assert (R : regs_ok F (words f)).
  { split; [rewrite map_length; auto|]. destruct G. eapply (be_words_ok p F); eauto. }
  assert (E : flat_map (mem_bytes nb) (map (s_rev p) (words f)) = flat_map (be_bytes nb) (words f)).
  { destruct G. eapply digest_eq; eauto. }
  rewrite E. rewrite <- A3 at 2. pose proof (groups_bytes nb 8 f N L O) as OG.
  revert A2 OG. generalize (groups nb f). clear. induction l as [|g l IH]; intros A OG; [reflexivity|].
  inversion_clear A. inversion_clear OG. cbn [map flat_map concat]. rewrite IH by auto. f_equal.
  rewrite <- H. apply be_bytes_val. auto.
Qed.
Lemma Update_eq : forall f U first its, dig f -> dig U ->
  pbkdf2_Update p (pbs f U first) its
  = pbs (fold_left xor_bytes (us (Z.to_nat (its - first)) key (prf key U)) f) (last_u (Z.to_nat (its - first)) U) 0.
Proof.
  intros f U first its Df DU. unfold pbkdf2_Update. change (pb_first (pbs f U first)) with first.
  rewrite iters by auto. reflexivity.
Qed.

Lemma T_eq : forall salt c i, 1 <= c ->
  let U1 := prf key (salt ++ be_bytes 4 i) in
  rfc8018_T prf key salt c i = fold_left xor_bytes (us (Z.to_nat (c - 1)) key (prf key U1)) U1.
Proof.
  intros salt c i Hc. cbv zeta. unfold rfc8018_T. replace (Z.to_nat c) with (S (Z.to_nat (c - 1))) by lia. reflexivity.
Qed.
Lemma block_T : forall junk salt c i, length junk = B -> bytes_ok salt -> len salt < 2 ^ 60 -> 0 <= i < 2 ^ 32 -> 1 <= c ->
  pbkdf2_Final p (pbkdf2_Update p (pbkdf2_Init p junk key salt i) c) = rfc8018_T prf key salt c i /\
  length (rfc8018_T prf key salt c i) = (8 * nb)%nat.
Proof.
  intros junk salt c i Lj Os Ls Hi Hc. rewrite T_eq by auto. cbv zeta. rewrite Init_eq by auto. cbv zeta.
  assert (D1 : dig (prf key (salt ++ be_bytes 4 i))) by (apply prf_dig; apply bytes_ok_app; auto using be_bytes_ok).
  rewrite Update_eq by auto.
  assert (D2 : dig (fold_left xor_bytes (us (Z.to_nat (c - 1)) key (prf key (prf key (salt ++ be_bytes 4 i)))) (prf key (salt ++ be_bytes 4 i)))).
  { apply us_dig; auto. apply prf_dig. apply D1. }
  split; [apply Final_eq; auto|apply D2].
Qed.

(** * Whole functions *)
Lemma loop_eq : forall junk salt c last n i, length junk = B -> bytes_ok salt -> len salt < 2 ^ 60 -> 1 <= c ->
  0 <= last <= Z.of_nat (8 * nb) -> (i + n < Z.to_nat (2 ^ 32))%nat ->
  pbkdf2_loop p (S n) junk key salt c (Z.of_nat i) last
  = firstn (n * (8 * nb) + Z.to_nat last)
      (flat_map (fun i => rfc8018_T prf key salt c (Z.of_nat i)) (seq i (S n))).
Proof.
  intros junk salt c last n. induction n; intros i Lj Os Ls Hc Hl Hi.
  - destruct (block_T junk salt c (Z.of_nat i) Lj Os Ls ltac:(lia) Hc) as [E _].
    cbn [pbkdf2_loop seq flat_map]. cbv zeta. rewrite E, app_nil_r. reflexivity.
  - destruct (block_T junk salt c (Z.of_nat i) Lj Os Ls ltac:(lia) Hc) as [E LT].
    remember (S n) as n1. cbn [pbkdf2_loop seq flat_map]. cbv zeta. rewrite E. subst n1. cbv iota.
    assert (Eu : u32 (Z.of_nat i + 1) = Z.of_nat (S i)) by (unfold u32; rewrite Z.mod_small; lia).
    rewrite Eu, IHn by (auto; lia). rewrite <- LT at 2.
    replace (S n * length (rfc8018_T prf key salt c (Z.of_nat i)) + Z.to_nat last)%nat
      with (length (rfc8018_T prf key salt c (Z.of_nat i)) + (n * length (rfc8018_T prf key salt c (Z.of_nat i)) + Z.to_nat last))%nat by lia.
    rewrite firstn_app_2. rewrite LT. reflexivity.
Qed.
Lemma pbkdf2_eq : forall junk salt c keylen, length junk = B -> bytes_ok salt -> len salt < 2 ^ 60 -> 1 <= c ->
  1 <= keylen < 2 ^ 31 ->
  pbkdf2 p junk key salt c keylen = rfc8018 prf (Z.of_nat (8 * nb)) key salt c keylen.
Proof.
  intros junk salt c keylen Lj Os Ls Hc Hk. unfold pbkdf2, rfc8018. pose proof nb_pos as N.
  set (d := Z.of_nat (8 * nb)). assert (Hd : 8 <= d) by (unfold d; lia).
  set (q := (keylen + d - 1) / d). 
  pose proof (Z.div_mod keylen d ltac:(lia)) as DM. pose proof (Z.mod_pos_bound keylen d ltac:(lia)) as MB.
  assert (Hq0 : 0 <= keylen / d) by (apply Z.div_pos; lia).
  assert (QB : keylen / d < 2 ^ 31).
  { apply Z.div_lt_upper_bound; lia. }
  assert (X : exists cnt0 last, (if keylen mod d =? 0 then (keylen / d, d) else (keylen / d + 1, keylen mod d)) = (cnt0, last)
     /\ cnt0 = q /\ 1 <= cnt0 < 2 ^ 31 + 1 /\ 0 <= last <= d /\ keylen = (cnt0 - 1) * d + last).
  { destruct (Z.eqb_spec (keylen mod d) 0) as [E|E]; do 2 eexists; (split; [reflexivity|]).
    - assert (1 <= keylen / d) by nia. split; [|lia]. unfold q.
      apply (Z.div_unique_pos _ _ _ (d - 1)); [lia|]. lia.
    - split; [|lia]. unfold q. apply (Z.div_unique_pos _ _ _ (keylen mod d - 1)); [lia|]. lia. }
  destruct X as (cn & last & EX & Eq & Hc1 & Hl & EK). rewrite EX. subst q.
  rewrite <- Eq. replace (Z.to_nat cn) with (S (Z.to_nat (cn - 1))) by lia.
  assert (M : 0 <= (cn - 1) * d) by (apply Z.mul_nonneg_nonneg; lia).
  pose proof (fun a b e f => loop_eq junk salt c last (Z.to_nat (cn - 1)) 1 a b e f Hl) as LE.
  change (Z.of_nat 1) with 1 in LE. rewrite LE; auto.
  - f_equal. rewrite EK. rewrite Z2Nat.inj_add by lia. rewrite Z2Nat.inj_mul by lia. unfold d. rewrite Nat2Z.id. reflexivity.
  - assert (Z.to_nat (cn - 1) < Z.to_nat (2 ^ 31))%nat by (apply Z2Nat.inj_lt; lia).
    replace (2 ^ 32) with (2 * 2 ^ 31) by reflexivity. rewrite Z2Nat.inj_mul by lia.
    assert (1 <= Z.to_nat (2 ^ 31))%nat by (apply (Z2Nat.inj_le 1); lia). change (Z.to_nat 2) with 2%nat. lia.
Qed.
(** Any number of calls of pbkdf2_Update with the same number of rounds. *)
Lemma updates_eq : forall junk salt i its k, length junk = B -> bytes_ok salt -> len salt < 2 ^ 60 -> 0 <= i < 2 ^ 32 ->
  1 <= its ->
  pbkdf2_Final p (Nat.iter (S k) (fun c => pbkdf2_Update p c its) (pbkdf2_Init p junk key salt i))
  = rfc8018_T prf key salt (Z.of_nat (S k) * its) i.
Proof.
  intros junk salt i its k Lj Os Ls Hi Hits. rewrite T_eq by lia. cbv zeta. rewrite Init_eq by auto. cbv zeta.
  set (U1 := prf key (salt ++ be_bytes 4 i)).
  assert (D1 : dig U1) by (apply prf_dig; apply bytes_ok_app; auto using be_bytes_ok).
  assert (D2 : dig (prf key U1)) by (apply prf_dig; apply D1).
  assert (E : Nat.iter (S k) (fun c => pbkdf2_Update p c its) (pbs U1 U1 1)
    = pbs (fold_left xor_bytes (us (Z.to_nat (Z.of_nat (S k) * its - 1)) key (prf key U1)) U1)
          (last_u (Z.to_nat (Z.of_nat (S k) * its - 1)) U1) 0).
  { induction k.
    - change (Nat.iter 1 ?f ?x) with (f x). cbv beta. rewrite Update_eq by auto.
      replace (Z.of_nat 1 * its - 1) with (its - 1) by lia. reflexivity.
    - change (Nat.iter (S (S k)) ?f ?x) with (f (Nat.iter (S k) f x)). cbv beta. rewrite IHk.
      rewrite Update_eq by (auto using us_dig, last_dig). rewrite Z.sub_0_r.
      replace (Z.to_nat (Z.of_nat (S (S k)) * its - 1)) with (Z.to_nat (Z.of_nat (S k) * its - 1) + Z.to_nat its)%nat by lia.
      rewrite us_add, last_add, fold_left_app, last_S. reflexivity. }
  rewrite E. apply Final_eq. apply us_dig; auto.
Qed.
End Key.
End Pb.

(** * HDWallet.cpp *)
Notation hash512 := (fips_hash fips512 K512 H512).
Notation prf512 := (rfc2104 hash512 128).
Lemma seed_rounds_eq : forall n m seed u, bytes_ok m -> len m < 2 ^ 32 -> bytes_ok u -> len u < 2 ^ 32 ->
  seed_rounds n m seed u = fold_left xor_bytes (rfc8018_us prf512 n m (prf512 m u)) seed.
Proof.
  induction n; intros m seed u Om Lm Ou Lu; [reflexivity|].
  cbn [seed_rounds rfc8018_us fold_left]. cbv zeta.
  change (hmac_write SHA_512 (hmac_Init SHA_512 m) u) with (fold_left (hmac_write SHA_512) [u] (hmac_Init SHA_512 m)).
  rewrite (hmac_writes _ _ _ _ good512) by (auto; cbn [concat]; rewrite app_nil_r; change (2 ^ 60) with (2 ^ 28 * 2 ^ 32); lia).
  rewrite trunc32_id by auto. cbn [concat]. rewrite app_nil_r.
  destruct (rfc2104_len _ _ _ _ good512 m u Om Ou) as [L O].
  change (block_len SHA_512) with 128%nat in *. change (s_K SHA_512) with K512 in *. change (s_H SHA_512) with H512 in *.
  change (8 * s_bytes SHA_512)%nat with 64%nat in L.
  rewrite IHn; auto. rewrite len_nat, L. lia.
Qed.
Lemma mnemonic_ok : bytes_ok (chars "mnemonic").
Proof. apply bytes_ok_bool. reflexivity. Qed.
Lemma first_T : forall m salt c, bytes_ok m -> bytes_ok salt -> len m < 2 ^ 32 -> len salt < 2 ^ 60 -> 1 <= c ->
  rfc8018 prf512 64 m salt c 64 = rfc8018_T prf512 m salt c 1.
Proof.
  intros m salt c Om Os Lm Ls Hc. unfold rfc8018. change (Z.to_nat ((64 + 64 - 1) / 64)) with 1%nat.
  cbn [seq flat_map]. rewrite app_nil_r. change (Z.of_nat 1) with 1.
  destruct (block_T _ _ _ _ good512 m Om Lm (zeros 128) salt c 1 eq_refl Os Ls ltac:(lia) Hc) as [_ L].
  change (8 * s_bytes SHA_512)%nat with 64%nat in L.
  apply firstn_all2. change (Z.to_nat 64) with 64%nat. apply Nat.eq_le_incl. exact L.
Qed.
Lemma mnemonic_seed_eq : forall m pw, bytes_ok m -> bytes_ok pw -> len m < 2 ^ 32 -> len pw < 2 ^ 32 ->
  mnemonic_seed m pw = rfc8018 prf512 64 m (chars "mnemonic" ++ pw) 2048 64.
Proof.
  intros m pw Om Op Lm Lp. pose proof mnemonic_ok as On.
  assert (Os : bytes_ok (chars "mnemonic" ++ pw)) by (apply bytes_ok_app; auto).
  assert (P : 2 ^ 60 = 2 ^ 28 * 2 ^ 32) by reflexivity.
  assert (Ls : len (chars "mnemonic" ++ pw) < 2 ^ 60).
  { rewrite len_app. change (len (chars "mnemonic")) with 8. lia. }
  rewrite first_T by (auto; lia).
  pose proof (T_eq SHA_512 fips512 m (chars "mnemonic" ++ pw) 2048 1 ltac:(lia)) as TE. cbv zeta in TE.
  change (block_len SHA_512) with 128%nat in TE. change (s_K SHA_512) with K512 in TE. change (s_H SHA_512) with H512 in TE.
  rewrite TE. clear TE. change (be_bytes 4 1) with [0; 0; 0; 1].
  unfold mnemonic_seed. cbv zeta.
  set (init := hmac_Init SHA_512 m).
  change (hmac_write SHA_512 (hmac_write SHA_512 (hmac_write SHA_512 init (chars "mnemonic")) pw) [0; 0; 0; 1])
    with (fold_left (hmac_write SHA_512) [chars "mnemonic"; pw; [0; 0; 0; 1]] init).
  unfold init.
  assert (O1 : bytes_ok [0; 0; 0; 1]) by (apply bytes_ok_bool; reflexivity).
  rewrite (hmac_writes _ _ _ _ good512); auto.
  2:{ cbn [concat]. rewrite !len_app. change (len (chars "mnemonic")) with 8. change (len [0;0;0;1]) with 4. change (len (@nil Z)) with 0. lia. }
  rewrite trunc32_id by auto. cbn [concat]. rewrite app_nil_r, app_assoc.
  assert (OU : bytes_ok ((chars "mnemonic" ++ pw) ++ [0; 0; 0; 1])) by (apply bytes_ok_app; auto).
  destruct (rfc2104_len _ _ _ _ good512 m _ Om OU) as [L O].
  change (block_len SHA_512) with 128%nat in *. change (s_K SHA_512) with K512 in *. change (s_H SHA_512) with H512 in *.
  change (8 * s_bytes SHA_512)%nat with 64%nat in L.
  apply seed_rounds_eq; auto. rewrite len_nat, L. lia.
Qed.
Lemma mnemonic_to_seed_eq : forall junk m pw, length junk = 128%nat -> bytes_ok m -> bytes_ok pw -> len m < 2 ^ 32 -> len pw <= 256 ->
  mnemonic_to_seed junk m pw = Ok (rfc8018 prf512 64 m (chars "mnemonic" ++ pw) 2048 64).
Proof.
  intros junk m pw Lj Om Op Lm Lp. pose proof mnemonic_ok as On.
  assert (Os : bytes_ok (chars "mnemonic" ++ pw)) by (apply bytes_ok_app; auto).
  assert (Ls : len (chars "mnemonic" ++ pw) < 2 ^ 60).
  { rewrite len_app. change (len (chars "mnemonic")) with 8. lia. }
  unfold mnemonic_to_seed. destruct (Z.ltb_spec 256 (len pw)); [lia|]. cbv zeta. apply (f_equal (@Ok (list Z))).
  rewrite first_T by (auto; lia). change (PBKDF2_ROUNDS / 16) with 128.
  rewrite (updates_eq _ _ _ _ good512 m Om Lm junk (chars "mnemonic" ++ pw) 1 128 15) by (auto; lia).
  change (Z.of_nat 16 * 128) with 2048. reflexivity.
Qed.
