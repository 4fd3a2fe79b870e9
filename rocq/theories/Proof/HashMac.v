(** HMAC is RFC 2104, PBKDF2 (both loops in the repository) is RFC 8018. *)
From Verif Require Import Base.Bytes Base.BytesFacts Base.Groups Spec.Codecs Spec.Hash.
From Verif Require Import Model.Hash Proof.IntVarint Proof.HashWords Proof.HashSha Proof.HashInst.
Require Import Lia.
Open Scope Z_scope.

Lemma trunc32_id : forall l, len l < 2 ^ 32 -> trunc32 l = l.
Proof.
  intros l H. unfold trunc32. rewrite Z.mod_small by (pose proof (len_nonneg _ l); lia).
  rewrite len_nat, Nat2Z.id. apply firstn_all.
Qed.
Lemma trunc32_len : forall l, len (trunc32 l) = len l mod 2 ^ 32.
Proof.
  intros. unfold trunc32. rewrite len_nat, firstn_length. rewrite len_nat.
  pose proof (Z.mod_pos_bound (Z.of_nat (length l)) (2 ^ 32) ltac:(lia)).
  pose proof (Z.mod_le (Z.of_nat (length l)) (2 ^ 32) ltac:(lia) ltac:(lia)). lia.
Qed.

Lemma lxor_byte : forall a b, byte_ok a -> byte_ok b -> byte_ok (Z.lxor a b).
Proof. intros a b Ha Hb. unfold byte_ok in *. apply (lxor_range 8); auto; lia. Qed.

Section Mac.
Variables (p : sha2) (F : fips) (cnt : Z * Z -> Z -> Prop) (lim : Z).
Hypothesis G : sha_good p F cnt lim.
Notation hash := (fips_hash F (s_K p) (s_H p)).
Notation B := (block_len p).
Notation nb := (s_bytes p).
Notation H0 := (s_H p).
Notation comp := (fips_block F (s_K p)).

Lemma B_nb : B = (16 * nb)%nat. Proof. reflexivity. Qed.
Lemma nb0 : (0 < nb)%nat. Proof. destruct G. auto. Qed.

Lemma hmac_key_eq : forall key, bytes_ok key -> hmac_key p key = rfc2104_key hash B (trunc32 key).
Proof.
  intros key O. unfold hmac_key, rfc2104_key. change (firstn (Z.to_nat (u32 (len key))) key) with (trunc32 key).
  assert (O2 : bytes_ok (trunc32 key)) by (apply bytes_ok_firstn; auto).
  assert (L : u32 (len key) = len (trunc32 key)) by (rewrite trunc32_len; reflexivity).
  rewrite L. pose proof (trunc32_len key) as LT. pose proof (Z.mod_pos_bound (len key) (2 ^ 32) ltac:(lia)).
  rewrite len_nat.
  destruct (Z.ltb_spec (Z.of_nat B) (Z.of_nat (length (trunc32 key)))), (Nat.ltb_spec B (length (trunc32 key))); try lia; auto.
  rewrite (one_write p F cnt lim G) by (auto; change (2 ^ 61) with (2 ^ 29 * 2 ^ 32); lia).
  rewrite (hash_len p F cnt lim G) by auto. reflexivity.
Qed.
Lemma key_len : forall key, bytes_ok key -> length (rfc2104_key hash B key) = B /\ bytes_ok (rfc2104_key hash B key).
Proof.
  intros key O. unfold rfc2104_key. pose proof nb0. destruct (Nat.ltb_spec B (length key)).
  - rewrite app_length, zeros_length, (hash_len p F cnt lim G) by auto. split; [rewrite B_nb; lia|].
    apply bytes_ok_app. split; auto using bytes_ok_zeros. apply (hash_ok p F cnt lim G).
  - rewrite app_length, zeros_length. split; [lia|]. apply bytes_ok_app. auto using bytes_ok_zeros.
Qed.
Lemma xor_pad : forall k b n, length k = n -> map (fun x => Z.lxor x b) k = xor_bytes k (repeat b n).
Proof. intros k b n <-. unfold xor_bytes. induction k; [auto|]. cbn [map length repeat combine fst snd]. f_equal. auto. Qed.
Lemma xor_ok : forall k l, bytes_ok k -> bytes_ok l -> bytes_ok (xor_bytes k l).
Proof.
  intros k l O. revert l. unfold xor_bytes. induction O; intros l' Ol; [constructor|].
  destruct l'; [constructor|]. inversion_clear Ol. cbn [combine map fst snd]. constructor; auto using lxor_byte. apply IHO. auto.
Qed.
Lemma xor_len : forall k l, length k = length l -> length (xor_bytes k l) = length k.
Proof. intros. unfold xor_bytes. rewrite map_length, combine_length. lia. Qed.
Lemma pad_ok : forall b n, byte_ok b -> bytes_ok (repeat b n).
Proof. intros. apply Forall_forall. intros x Hx. apply repeat_spec in Hx. subst. auto. Qed.

Definition ipad (key : list Z) := xor_bytes (rfc2104_key hash B key) (repeat 0x36 B).
Definition opad (key : list Z) := xor_bytes (rfc2104_key hash B key) (repeat 0x5c B).
Lemma pads : forall key, bytes_ok key -> length (ipad key) = B /\ bytes_ok (ipad key) /\ length (opad key) = B /\ bytes_ok (opad key).
Proof.
  intros key O. destruct (key_len key O) as [L OK]. unfold ipad, opad.
  rewrite !xor_len by (rewrite repeat_length; auto). split; auto. split; [apply xor_ok; auto; apply pad_ok; unfold byte_ok; lia|].
  split; auto. apply xor_ok; auto; apply pad_ok; unfold byte_ok; lia.
Qed.

Lemma B32 : Z.of_nat B < 2 ^ 32. Proof. destruct G. auto. Qed.
Lemma LIM : 2 ^ 61 <= lim. Proof. destruct G. auto. Qed.
Notation grep := (grep p F cnt).

Lemma hmac_writes : forall key chunks, bytes_ok key -> Forall bytes_ok chunks ->
  len (concat chunks) < 2 ^ 60 ->
  hmac_Final p (fold_left (hmac_write p) chunks (hmac_Init p key)) = rfc2104 hash B (trunc32 key) (concat chunks).
Proof.
  intros key chunks O OC L. unfold hmac_Init. rewrite hmac_key_eq by auto.
  set (tk := trunc32 key). assert (Ok : bytes_ok tk) by (apply bytes_ok_firstn; auto). clearbody tk.
  destruct (key_len tk Ok) as [LK OK].
  rewrite !(xor_pad _ _ B) by auto. fold (ipad tk). fold (opad tk).
  destruct (pads tk Ok) as (Li & Oi & Lo & Oo).
  pose proof B32 as B32. pose proof LIM as LM. change (2 ^ 61) with (2 * 2 ^ 60) in LM.
  assert (P60 : 2 ^ 32 < 2 ^ 60) by (change (2 ^ 60) with (2 ^ 28 * 2 ^ 32); lia).
  assert (E : forall m, fold_left (hmac_write p) chunks m = mkHm (fold_left (sha2_Update p) chunks (hm_ctx m)) (hm_opad m)).
  { clear. induction chunks; intros m; [destruct m; auto|]. cbn [fold_left]. rewrite IHchunks. auto. }
  rewrite E. cbn [hm_ctx hm_opad]. unfold hmac_Final. cbn [hm_ctx hm_opad].
  assert (R1 : grep H0 (sha2_Update p (sha2_Init p) (ipad tk)) (ipad tk)).
  { change (ipad tk) with ([] ++ ipad tk) at 2. eapply gUpdate; eauto; cbn [app]; rewrite ?len_nat, ?Li; try lia.
    eapply gInit; eauto. }
  assert (LC : Forall (fun d => len d < 2 ^ 61) chunks).
  { clear - L. apply Forall_forall. intros d Hd. change (2 ^ 61) with (2 * 2 ^ 60).
    enough (len d <= len (concat chunks)) by (pose proof (len_nonneg _ d); lia). clear L.
    induction chunks; [easy|]. cbn [concat]. rewrite len_app. destruct Hd as [<-|Hd].
    - pose proof (len_nonneg _ (concat chunks)). lia.
    - specialize (IHchunks Hd). pose proof (len_nonneg _ a). lia. }
  rewrite (gFinal p F cnt lim G (fold_left (sha2_Update p) chunks _) (ipad tk ++ concat chunks)).
  2:{ apply (gWrites p F cnt lim G); auto. rewrite len_app, len_nat, Li. lia. }
  2:{ rewrite len_app, len_nat, Li. lia. }
  assert (R2 : grep H0 (sha2_Update p (sha2_Init p) (opad tk)) (opad tk)).
  { change (opad tk) with ([] ++ opad tk) at 2. eapply gUpdate; eauto; cbn [app]; rewrite ?len_nat, ?Lo; try lia.
    eapply gInit; eauto. }
  assert (OM : bytes_ok (ipad tk ++ concat chunks)).
  { apply bytes_ok_app. split; auto. apply Forall_concat. auto. }
  pose proof (hash_len p F cnt lim G (ipad tk ++ concat chunks) OM) as LH.
  pose proof (hash_ok p F cnt lim G (ipad tk ++ concat chunks)) as OH.
  rewrite (gFinal p F cnt lim G _ (opad tk ++ hash (ipad tk ++ concat chunks))).
  - reflexivity.
  - eapply gUpdate; eauto; rewrite ?len_app, ?len_nat, ?Lo, ?LH; change (2 ^ 61) with (2 * 2 ^ 60); rewrite B_nb in *; lia.
  - rewrite len_app, !len_nat, Lo, LH. rewrite B_nb in *. lia.
Qed.

Lemma hmac_any : forall key msg, bytes_ok key -> bytes_ok msg ->
  hmac_once p key msg = rfc2104 hash B (trunc32 key) (trunc32 msg).
Proof.
  intros key msg Ok Om. unfold hmac_once, hmac_Update. change (firstn (Z.to_nat (u32 (len msg))) msg) with (trunc32 msg).
  change (hmac_write p (hmac_Init p key) (trunc32 msg)) with (fold_left (hmac_write p) [trunc32 msg] (hmac_Init p key)).
  rewrite hmac_writes; auto.
  - cbn [concat]. rewrite app_nil_r. auto.
  - constructor; auto. apply bytes_ok_firstn; auto.
  - cbn [concat]. rewrite app_nil_r, trunc32_len. change (2 ^ 60) with (2 ^ 28 * 2 ^ 32).
    pose proof (Z.mod_pos_bound (len msg) (2 ^ 32) ltac:(lia)). lia.
Qed.
Lemma rfc2104_len : forall key msg, bytes_ok key -> bytes_ok msg ->
  length (rfc2104 hash B key msg) = (8 * nb)%nat /\ bytes_ok (rfc2104 hash B key msg).
Proof.
  intros key msg Ok Om. unfold rfc2104. fold (ipad key). fold (opad key). destruct (pads key Ok) as (Li & Oi & Lo & Oo).
  split; [|apply (hash_ok p F cnt lim G)]. apply (hash_len p F cnt lim G). apply bytes_ok_app. split; auto.
  apply (hash_ok p F cnt lim G).
Qed.

(** * The prepared digests *)
Notation words l := (map (be_val 256) (groups nb l)).
Notation tail := ([128] ++ zeros (6 * nb + (nb - 1)) ++ be_bytes nb (8 * Z.of_nat (B + 8 * nb))).
End Mac.
