(** The statements of C41, C42 and C64, put together. *)
From Verif Require Import Base.Bytes Base.BytesFacts Base.Groups Spec.Codecs Spec.Hash.
From Verif Require Import Model.Hash Proof.IntVarint Proof.HashWords Proof.HashSha Proof.HashInst Proof.HashMac Proof.HashRmd Proof.HashPbkdf.
Require Import Lia.
Open Scope Z_scope.

Lemma sha256_consts : forall K H, fips_constants fips256 K H -> K = K256 /\ H = H256.
Proof. intros K H C. apply (constants_unique fips256); auto using constants256. cbn. lia. Qed.
Lemma sha512_consts : forall K H, fips_constants fips512 K H -> K = K512 /\ H = H512.
Proof. intros K H C. apply (constants_unique fips512); auto using constants512. cbn. lia. Qed.

Lemma root30_unique : forall e p k k', 0 < e -> root30 e p k -> root30 e p k' -> k = k'.
Proof.
  intros e p k k' He (P & H1 & H2) (P' & H1' & H2').
  destruct (Z.lt_trichotomy k k') as [L|[L|L]]; auto; exfalso.
  - pose proof (Z.pow_le_mono_l (k + 1) k' e ltac:(lia)). lia.
  - pose proof (Z.pow_le_mono_l (k' + 1) k e ltac:(lia)). lia.
Qed.
Lemma rmd_consts_ok : rmd_constants mK mKp.
Proof.
  split; do 4 eexists; (split; [reflexivity|]); unfold root30; repeat split; try (intro; discriminate); reflexivity.
Qed.
Lemma rmd_consts : forall K K', rmd_constants K K' -> K = mK /\ K' = mKp.
Proof.
  intros K K' [(a1 & a2 & a3 & a4 & -> & A1 & A2 & A3 & A4) (b1 & b2 & b3 & b4 & -> & B1 & B2 & B3 & B4)].
  destruct rmd_consts_ok as [(c1 & c2 & c3 & c4 & E & C1 & C2 & C3 & C4) (d1 & d2 & d3 & d4 & E' & D1 & D2 & D3 & D4)].
  rewrite E, E'. split; repeat f_equal; eapply root30_unique; eauto; lia.
Qed.

Lemma chunk_le : forall (chunks : list (list Z)) d, In d chunks -> len d <= len (concat chunks).
Proof.
  induction chunks; intros d Hd; [easy|]. cbn [concat]. rewrite len_app. destruct Hd as [<-|Hd].
  - pose proof (len_nonneg _ (concat chunks)). lia.
  - specialize (IHchunks d Hd). pose proof (len_nonneg _ a). lia.
Qed.
Lemma chunks_lt : forall (chunks : list (list Z)) n, len (concat chunks) < n -> Forall (fun d => len d < n) chunks.
Proof. intros. apply Forall_forall. intros d Hd. apply chunk_le in Hd. lia. Qed.

Notation digest o start chunks := (fst (o_end o (fold_left (o_write o) chunks start))).

Lemma sha256_any : forall K H chunks, fips_constants fips256 K H -> Forall bytes_ok chunks ->
  len (concat chunks) < 2 ^ 61 ->
  digest SHA256_obj (o_new SHA256_obj) chunks = fips_hash fips256 K H (concat chunks).
Proof.
  intros K H chunks C O L. apply sha256_consts in C as [-> ->].
  apply (any_writes _ _ _ _ good256); auto using chunks_lt.
Qed.
Lemma sha512_any : forall K H chunks, fips_constants fips512 K H -> Forall bytes_ok chunks ->
  len (concat chunks) < 2 ^ 125 -> Forall (fun d => len d < 2 ^ 61) chunks ->
  digest SHA512_obj (o_new SHA512_obj) chunks = fips_hash fips512 K H (concat chunks).
Proof.
  intros K H chunks C O L L2. apply sha512_consts in C as [-> ->].
  apply (any_writes _ _ _ _ good512); auto.
Qed.
Lemma rmd160_any : forall K K' chunks, rmd_constants K K' -> Forall bytes_ok chunks ->
  Forall (fun d => len d < 2 ^ 32) chunks -> len (concat chunks) < 2 ^ 61 ->
  digest RMD160_obj (o_new RMD160_obj) chunks = rmd_hash K K' (concat chunks).
Proof. intros K K' chunks C O L L2. apply rmd_consts in C as [-> ->]. apply rmd_any; auto. Qed.
Lemma Update_trunc : forall c d, rmd_Update c d = rmd_Update c (trunc32 d).
Proof.
  intros c d. unfold rmd_Update. change (firstn (Z.to_nat (u32 (len d))) d) with (trunc32 d).
  rewrite trunc32_len. unfold u32. rewrite Z.mod_mod by lia.
  replace (firstn (Z.to_nat (len d mod 2 ^ 32)) (trunc32 d)) with (trunc32 d); [reflexivity|].
  symmetry. apply firstn_all2. rewrite <- trunc32_len, len_nat. lia.
Qed.
Lemma rmd160_trunc : forall K K' chunks, rmd_constants K K' -> Forall bytes_ok chunks ->
  len (concat (map trunc32 chunks)) < 2 ^ 61 ->
  digest RMD160_obj (o_new RMD160_obj) chunks = rmd_hash K K' (concat (map trunc32 chunks)).
Proof.
  intros K K' chunks C O L. rewrite <- (rmd160_any K K'); auto.
  - f_equal. cbn [o_end o_write o_new RMD160_obj]. f_equal. generalize rmd_Init. clear.
    induction chunks; intros c; [reflexivity|]. cbn [fold_left map]. rewrite <- Update_trunc. auto.
  - clear - O. induction O; constructor; auto. apply bytes_ok_firstn. auto.
  - apply Forall_forall. intros x Hx. apply in_map_iff in Hx as (y & <- & _). rewrite trunc32_len. apply Z.mod_pos_bound. lia.
Qed.

Lemma sha256_one : forall data, bytes_ok data -> len data < 2 ^ 61 -> sha256 data = fips_hash fips256 K256 H256 data.
Proof. apply (one_write _ _ _ _ good256). Qed.
Lemma sha512_one : forall data, bytes_ok data -> len data < 2 ^ 61 -> sha512 data = fips_hash fips512 K512 H512 data.
Proof. apply (one_write _ _ _ _ good512). Qed.
Lemma hash256_len : forall m, bytes_ok m -> len (fips_hash fips256 K256 H256 m) = 32 /\ bytes_ok (fips_hash fips256 K256 H256 m).
Proof.
  intros m O. split; [|apply (hash_ok _ _ _ _ good256)]. rewrite len_nat.
  pose proof (hash_len _ _ _ _ good256 m O) as E. change (8 * s_bytes SHA_256)%nat with 32%nat in E.
  transitivity (Z.of_nat 32); [|reflexivity]. f_equal. exact E.
Qed.
Lemma rmd160_one : forall data, bytes_ok data -> len data < 2 ^ 32 -> rmd160 data = rmd_hash mK mKp data.
Proof.
  intros data O L. unfold rmd160. change (rmd_Update rmd_Init data) with (fold_left rmd_Update [data] rmd_Init).
  rewrite rmd_any; auto; cbn [concat]; rewrite ?app_nil_r; auto. lia.
Qed.
Lemma hash160_any : forall K H C C' chunks, fips_constants fips256 K H -> rmd_constants C C' -> Forall bytes_ok chunks ->
  len (concat chunks) < 2 ^ 61 ->
  digest Hash160_obj (o_new Hash160_obj) chunks = rmd_hash C C' (fips_hash fips256 K H (concat chunks)).
Proof.
  intros K H C C' chunks HC HR O L. pose proof (sha256_any K H chunks HC O L) as E.
  cbn [o_end o_write o_new Hash160_obj SHA256_obj] in *. destruct (sha2_Final SHA_256 _) as [h c]. cbn [fst] in *. subst h.
  apply sha256_consts in HC as [-> ->]. apply rmd_consts in HR as [-> ->].
  destruct (hash256_len (concat chunks)) as [L2 O2]. { apply Forall_concat. auto. }
  apply rmd160_one; auto. rewrite L2. lia.
Qed.
Lemma doubleSha_any : forall K H chunks, fips_constants fips256 K H -> Forall bytes_ok chunks ->
  len (concat chunks) < 2 ^ 61 ->
  digest DoubleSha_obj (o_new DoubleSha_obj) chunks = fips_hash fips256 K H (fips_hash fips256 K H (concat chunks)).
Proof.
  intros K H chunks HC O L. pose proof (sha256_any K H chunks HC O L) as E.
  cbn [o_end o_write o_new DoubleSha_obj SHA256_obj] in *. destruct (sha2_Final SHA_256 _) as [h c]. cbn [fst] in *. subst h.
  apply sha256_consts in HC as [-> ->].
  destruct (hash256_len (concat chunks)) as [L2 O2]. { apply Forall_concat. auto. }
  apply sha256_one; auto. rewrite L2. lia.
Qed.
Lemma tagged_any : forall K H tag chunks, fips_constants fips256 K H -> bytes_ok tag -> Forall bytes_ok chunks ->
  len tag < 2 ^ 61 -> len (concat chunks) < 2 ^ 60 ->
  let th := fips_hash fips256 K H tag in
  digest (TaggedHash_obj tag) (o_new (TaggedHash_obj tag)) chunks = fips_hash fips256 K H (th ++ th ++ concat chunks).
Proof.
  intros K H tag chunks HC Ot O Lt L. cbv zeta. pose proof HC as HC2. apply sha256_consts in HC2 as [-> ->].
  destruct (hash256_len tag Ot) as [L2 O2].
  set (th := fips_hash fips256 K256 H256 tag) in *.
  pose proof (sha256_any K256 H256 (th :: th :: chunks) HC ltac:(auto)) as E.
  cbn [concat] in E. rewrite <- E.
  - cbn [o_end o_write o_new TaggedHash_obj SHA256_obj fold_left]. rewrite sha256_one by auto. reflexivity.
  - rewrite !len_app, L2. change (2 ^ 61) with (2 * 2 ^ 60). lia.
Qed.
Lemma one_shots : forall K H K5 H5 C C' data, fips_constants fips256 K H -> fips_constants fips512 K5 H5 -> rmd_constants C C' ->
  bytes_ok data -> len data < 2 ^ 32 ->
  sha256 data = fips_hash fips256 K H data /\ sha512 data = fips_hash fips512 K5 H5 data /\
  rmd160 data = rmd_hash C C' data /\ hash160 data = rmd_hash C C' (fips_hash fips256 K H data) /\
  doubleSha data = fips_hash fips256 K H (fips_hash fips256 K H data).
Proof.
  intros K H K5 H5 C C' data H1 H2 H3 O L.
  assert (L61 : len data < 2 ^ 61) by (change (2 ^ 61) with (2 ^ 29 * 2 ^ 32); pose proof (len_nonneg _ data); lia).
  pose proof (hash160_any K H C C' [data] H1 H3 ltac:(auto) ltac:(cbn [concat]; rewrite app_nil_r; auto)) as A4.
  pose proof (doubleSha_any K H [data] H1 ltac:(auto) ltac:(cbn [concat]; rewrite app_nil_r; auto)) as A5.
  cbn [concat] in A4, A5. rewrite app_nil_r in A4, A5.
  split; [|split; [|split; [|split; [exact A4|exact A5]]]].
  - apply sha256_consts in H1 as [-> ->]. apply sha256_one; auto.
  - apply sha512_consts in H2 as [-> ->]. apply sha512_one; auto.
  - apply rmd_consts in H3 as [-> ->]. apply rmd160_one; auto.
Qed.

(** * HMAC *)
Lemma hmac256_writes : forall K H key chunks, fips_constants fips256 K H -> bytes_ok key -> Forall bytes_ok chunks ->
  len key < 2 ^ 32 -> len (concat chunks) < 2 ^ 60 ->
  hmac_Final SHA_256 (fold_left (hmac_write SHA_256) chunks (hmac_Init SHA_256 key))
  = rfc2104 (fips_hash fips256 K H) 64 key (concat chunks).
Proof.
  intros K H key chunks C Ok Oc Lk Lc. apply sha256_consts in C as [-> ->].
  rewrite (hmac_writes _ _ _ _ good256) by auto. rewrite trunc32_id by auto. reflexivity.
Qed.
Lemma hmac512_writes : forall K H key chunks, fips_constants fips512 K H -> bytes_ok key -> Forall bytes_ok chunks ->
  len key < 2 ^ 32 -> len (concat chunks) < 2 ^ 60 ->
  hmac_Final SHA_512 (fold_left (hmac_write SHA_512) chunks (hmac_Init SHA_512 key))
  = rfc2104 (fips_hash fips512 K H) 128 key (concat chunks).
Proof.
  intros K H key chunks C Ok Oc Lk Lc. apply sha512_consts in C as [-> ->].
  rewrite (hmac_writes _ _ _ _ good512) by auto. rewrite trunc32_id by auto. reflexivity.
Qed.
Lemma hmac256_once : forall K H key msg, fips_constants fips256 K H -> bytes_ok key -> bytes_ok msg ->
  sha256Hmac key msg = rfc2104 (fips_hash fips256 K H) 64 (trunc32 key) (trunc32 msg).
Proof. intros K H key msg C Ok Om. apply sha256_consts in C as [-> ->]. apply (hmac_any _ _ _ _ good256); auto. Qed.
Lemma hmac512_once : forall K H key msg, fips_constants fips512 K H -> bytes_ok key -> bytes_ok msg ->
  sha512Hmac key msg = rfc2104 (fips_hash fips512 K H) 128 (trunc32 key) (trunc32 msg).
Proof. intros K H key msg C Ok Om. apply sha512_consts in C as [-> ->]. apply (hmac_any _ _ _ _ good512); auto. Qed.
Lemma hmac256_eq : forall K H key msg, fips_constants fips256 K H -> bytes_ok key -> bytes_ok msg ->
  len key < 2 ^ 32 -> len msg < 2 ^ 32 -> sha256Hmac key msg = rfc2104 (fips_hash fips256 K H) 64 key msg.
Proof. intros. rewrite (hmac256_once K H) by auto. rewrite !trunc32_id by auto. auto. Qed.
Lemma hmac512_eq : forall K H key msg, fips_constants fips512 K H -> bytes_ok key -> bytes_ok msg ->
  len key < 2 ^ 32 -> len msg < 2 ^ 32 -> sha512Hmac key msg = rfc2104 (fips_hash fips512 K H) 128 key msg.
Proof. intros. rewrite (hmac512_once K H) by auto. rewrite !trunc32_id by auto. auto. Qed.

(** * PBKDF2 *)
Lemma pbkdf2_256 : forall K H junk pass salt c keylen, fips_constants fips256 K H -> length junk = 64%nat ->
  bytes_ok pass -> bytes_ok salt -> len pass < 2 ^ 31 -> len salt < 2 ^ 31 -> 1 <= c -> 1 <= keylen < 2 ^ 31 ->
  pbkdf2 SHA_256 junk pass salt c keylen = rfc8018 (rfc2104 (fips_hash fips256 K H) 64) 32 pass salt c keylen.
Proof.
  intros K H junk pass salt c keylen C Lj Op Os Lp Ls Hc Hk. apply sha256_consts in C as [-> ->].
  apply (pbkdf2_eq _ _ _ _ good256); auto; lia.
Qed.
Lemma pbkdf2_512 : forall K H junk pass salt c keylen, fips_constants fips512 K H -> length junk = 128%nat ->
  bytes_ok pass -> bytes_ok salt -> len pass < 2 ^ 31 -> len salt < 2 ^ 31 -> 1 <= c -> 1 <= keylen < 2 ^ 31 ->
  pbkdf2 SHA_512 junk pass salt c keylen = rfc8018 (rfc2104 (fips_hash fips512 K H) 128) 64 pass salt c keylen.
Proof.
  intros K H junk pass salt c keylen C Lj Op Os Lp Ls Hc Hk. apply sha512_consts in C as [-> ->].
  apply (pbkdf2_eq _ _ _ _ good512); auto; lia.
Qed.
Lemma seed_eq : forall K H m pw, fips_constants fips512 K H -> bytes_ok m -> bytes_ok pw ->
  len m < 2 ^ 32 -> len pw < 2 ^ 32 ->
  mnemonic_seed m pw = rfc8018 (rfc2104 (fips_hash fips512 K H) 128) 64 m (chars "mnemonic" ++ pw) 2048 64.
Proof. intros K H m pw C Om Op Lm Lp. apply sha512_consts in C as [-> ->]. apply mnemonic_seed_eq; auto. Qed.
Lemma to_seed_eq : forall K H junk m pw, fips_constants fips512 K H -> length junk = 128%nat -> bytes_ok m -> bytes_ok pw ->
  len m < 2 ^ 32 -> len pw <= 256 ->
  mnemonic_to_seed junk m pw
  = Ok (rfc8018 (rfc2104 (fips_hash fips512 K H) 128) 64 m (chars "mnemonic" ++ pw) 2048 64).
Proof. intros K H junk m pw C Lj Om Op Lm Lp. apply sha512_consts in C as [-> ->]. apply mnemonic_to_seed_eq; auto. Qed.
Lemma to_seed_long : forall junk m pw, 256 < len pw -> mnemonic_to_seed junk m pw = UB.
Proof. intros junk m pw L. unfold mnemonic_to_seed. destruct (Z.ltb_spec 256 (len pw)); [reflexivity|lia]. Qed.

(** * Using an object again *)
Section Zero.
Variables (p : sha2) (F : fips) (cnt : Z * Z -> Z -> Prop) (lim : Z).
Hypothesis G : sha_good p F cnt lim.
Lemma zero_any : forall c chunks, Forall bytes_ok chunks -> len (concat chunks) < 2 ^ 61 ->
  fst (sha2_Final p (fold_left (sha2_Update p) chunks (snd (sha2_Final p c)))) = fips_hash F (s_K p) (zeros 8) (concat chunks).
Proof.
  intros c chunks O L. destruct G.
  assert (E : snd (sha2_Final p c) = mkHctx (zeros 8) (0, 0) (zeros (block_len p))).
  { unfold sha2_Final. destruct (Nat.ltb _ _); reflexivity. }
  rewrite E. rewrite (fips_hash_pad p F) by auto.
  assert (Z0 : regs_ok F (zeros 8)).
  { split; [reflexivity|]. apply Forall_forall. intros x Hx. apply repeat_spec in Hx. subst x. eapply zero_ok; eauto. }
  assert (R : rep p F cnt (zeros 8) (mkHctx (zeros 8) (0, 0) (zeros (block_len p))) []).
  { constructor; auto.
    - exists [], [], 0%nat. repeat split; auto. cbn [length]. unfold block_len. lia.
    - apply zeros_length.
    - constructor. }
  eapply Final_rep; eauto; [|lia].
  change (concat chunks) with ([] ++ concat chunks).
  eapply writes_rep; eauto using chunks_lt. cbn [app]. lia.
Qed.
End Zero.
Lemma reuse256 : forall K H c chunks, fips_constants fips256 K H -> Forall bytes_ok chunks -> len (concat chunks) < 2 ^ 61 ->
  digest SHA256_obj (snd (o_end SHA256_obj c)) chunks = fips_hash fips256 K (zeros 8) (concat chunks).
Proof. intros K H c chunks C O L. apply sha256_consts in C as [-> ->]. apply (zero_any _ _ _ _ good256); auto. Qed.
Lemma reuse512 : forall K H c chunks, fips_constants fips512 K H -> Forall bytes_ok chunks -> len (concat chunks) < 2 ^ 61 ->
  digest SHA512_obj (snd (o_end SHA512_obj c)) chunks = fips_hash fips512 K (zeros 8) (concat chunks).
Proof. intros K H c chunks C O L. apply sha512_consts in C as [-> ->]. apply (zero_any _ _ _ _ good512); auto. Qed.
Lemma begin_again : forall o, In o [RMD160_obj; SHA256_obj; SHA512_obj; Hash160_obj; DoubleSha_obj] ->
  forall chunks, digest o (o_begin o) chunks = digest o (o_new o) chunks.
Proof. intros o H. cbn [In] in H. intuition subst; reflexivity. Qed.
Lemma abc_ok : Forall bytes_ok [chars "abc"].
Proof. constructor; [|constructor]. apply bytes_ok_bool. reflexivity. Qed.
Lemma abc_differs : fips_hash fips256 K256 (zeros 8) (chars "abc") <> fips_hash fips256 K256 H256 (chars "abc").
Proof. intro E. apply (f_equal (hd 0)) in E. vm_compute in E. discriminate. Qed.
Lemma reuse_wrong : forall K H K5 H5, fips_constants fips256 K H -> fips_constants fips512 K5 H5 ->
  (forall c chunks, Forall bytes_ok chunks -> len (concat chunks) < 2 ^ 61 ->
    digest SHA256_obj (snd (o_end SHA256_obj c)) chunks = fips_hash fips256 K (zeros 8) (concat chunks) /\
    digest SHA512_obj (snd (o_end SHA512_obj c)) chunks = fips_hash fips512 K5 (zeros 8) (concat chunks)) /\
  forall c, digest SHA256_obj (snd (o_end SHA256_obj c)) [chars "abc"] <> digest SHA256_obj (o_new SHA256_obj) [chars "abc"].
Proof.
  intros K H K5 H5 C C5. split.
  - intros c chunks O L. split; [eapply reuse256; eauto|eapply reuse512; eauto].
  - intros c. rewrite (reuse256 K256 H256 c) by (auto using constants256, abc_ok; reflexivity).
    rewrite (sha256_any K256 H256) by (auto using constants256, abc_ok; reflexivity). exact abc_differs.
Qed.
Lemma tagged_begin :
  (forall tag chunks, digest (TaggedHash_obj tag) (o_begin (TaggedHash_obj tag)) chunks = digest SHA256_obj (o_new SHA256_obj) chunks) /\
  let o := TaggedHash_obj (chars "BIP0340/challenge") in
  digest o (o_begin o) [chars "abc"] <> digest o (o_new o) [chars "abc"].
Proof.
  split; [intros; reflexivity|]. cbv zeta. intro E. apply (f_equal (hd 0)) in E. vm_compute in E. discriminate.
Qed.
