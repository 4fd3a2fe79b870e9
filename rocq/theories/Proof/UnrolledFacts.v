(** The unrolled transforms compute what the loops compute. *)
From Coq Require Import Lia.
From Verif Require Import Base.Bytes Base.BytesFacts Model.Hash Model.Unrolled.
Open Scope Z_scope.

Section Unrolled.
Variable p : sha2.
Definition view (args : list nat) (R : list Z) : list Z := map (fun i => nth i R 0) args.
Lemma word_idem : forall a b c, word p (a + word p (b + c)) = word p (a + b + c).
Proof. intros a b c. unfold word. rewrite Zplus_mod_idemp_r. f_equal. lia. Qed.
Definition next (args : list nat) : list nat := match rev args with [] => [] | x :: t => x :: rev t end.
Lemma macro_step : forall args k x R, In args calls -> length R = 8%nat ->
  sha2_round p k x (view args R) = view (next args) (macro p args k x R) /\ length (macro p args k x R) = 8%nat.
Proof.
  intros args k x R I L. do 8 (destruct R as [|? R]; [discriminate L|]). destruct R; [|discriminate L]. clear L.
  unfold calls in I. cbn [In] in I.
  repeat (destruct I as [<-|I]; [unfold macro; cbn [view map nth next rev app set_nth length]; unfold sha2_round; cbv zeta; rewrite word_idem; split; reflexivity|]). destruct I.
Qed.
Lemma first_calls : forall l j data W R, length R = 8%nat -> Forall (fun a => In a calls) l ->
  (forall a b t u, l = t ++ a :: b :: u -> b = next a) -> forall a0, match l with [] => True | a :: _ => a = a0 end -> forall n,
  let '(j', W', R') := calls_first p l j data W R in
  j' = (length l + j)%nat /\ length R' = 8%nat /\
  sha2_first p (length l + n) j data W (view a0 R) = sha2_first p n j' data W' (view (fold_left (fun a _ => next a) l a0) R').
Proof.
  induction l as [|a l IH]; intros j data W R L F C a0 A n; [cbn; auto|]. subst a. apply Forall_cons_iff in F as [F1 F2].
  cbn [calls_first length Nat.add sha2_first fold_left]. destruct (macro_step a0 (nth j (s_K p) 0) (nth j data 0) R F1 L) as [E L'].
  rewrite E. specialize (IH (S j) data (set_nth W j (nth j data 0)) (macro p a0 (nth j (s_K p) 0) (nth j data 0) R) L' F2).
  assert (C' : forall a b t u, l = t ++ a :: b :: u -> b = next a) by (intros a b t u ->; apply (C a b (a0 :: t) u); reflexivity).
  assert (A' : match l with [] => True | a :: _ => a = next a0 end) by (destruct l as [|b l]; [exact I|apply (C a0 b [] l); reflexivity]).
  specialize (IH C' (next a0) A' n). destruct (calls_first p l _ _ _ _) as [[j' W'] R']. destruct IH as (J & LR & EQ). split; [lia|]. split; auto.
Qed.
Lemma second_calls : forall l j W R, length R = 8%nat -> Forall (fun a => In a calls) l ->
  (forall a b t u, l = t ++ a :: b :: u -> b = next a) -> forall a0, match l with [] => True | a :: _ => a = a0 end -> forall n,
  let '(j', W', R') := calls_second p l j W R in
  j' = (length l + j)%nat /\ length R' = 8%nat /\
  sha2_second p (length l + n) j W (view a0 R) = sha2_second p n j' W' (view (fold_left (fun a _ => next a) l a0) R').
Proof.
  induction l as [|a l IH]; intros j W R L F C a0 A n; [cbn; auto|]. subst a. apply Forall_cons_iff in F as [F1 F2].
  cbn [calls_second length Nat.add sha2_second fold_left]. set (x := word p _).
  destruct (macro_step a0 (nth j (s_K p) 0) x R F1 L) as [E L']. rewrite E.
  specialize (IH (S j) (set_nth W (j mod 16) x) (macro p a0 (nth j (s_K p) 0) x R) L' F2).
  assert (C' : forall a b t u, l = t ++ a :: b :: u -> b = next a) by (intros a b t u ->; apply (C a b (a0 :: t) u); reflexivity).
  assert (A' : match l with [] => True | a :: _ => a = next a0 end) by (destruct l as [|b l]; [exact I|apply (C a0 b [] l); reflexivity]).
  specialize (IH C' (next a0) A' n). destruct (calls_second p l _ _ _) as [[j' W'] R']. destruct IH as (J & LR & EQ). split; [lia|]. split; auto.
Qed.
Definition a_h : list nat := [0; 1; 2; 3; 4; 5; 6; 7]%nat.
Lemma calls_in : Forall (fun a => In a calls) calls. Proof. apply Forall_forall. auto. Qed.
Lemma calls_chain : forall a b t u, calls = t ++ a :: b :: u -> b = next a.
Proof.
  intros a b t u E. unfold calls in E. do 7 (destruct t as [|? t]; [injection E as <- <- _; reflexivity|injection E as _ E]).
  destruct t as [|? t]; [discriminate E|injection E as _ E; destruct t; discriminate E].
Qed.
Lemma view_all : forall R, length R = 8%nat -> view a_h R = R.
Proof. intros R L. do 8 (destruct R as [|? R]; [discriminate L|]). destruct R; [reflexivity|discriminate L]. Qed.
Lemma first_body : forall j data W R n, length R = 8%nat -> let '(j', W', R') := calls_first p calls j data W R in
  j' = (8 + j)%nat /\ length R' = 8%nat /\ sha2_first p (8 + n) j data W R = sha2_first p n j' data W' R'.
Proof.
  intros j data W R n L. pose proof (first_calls calls j data W R L calls_in calls_chain a_h eq_refl n) as H.
  destruct (calls_first p calls j data W R) as [[j' W'] R']. destruct H as (J & LR & E). split; [exact J|]. split; [exact LR|].
  rewrite (view_all R L) in E. change (fold_left (fun a _ => next a) calls a_h) with a_h in E. rewrite (view_all R' LR) in E. exact E.
Qed.
Lemma second_body : forall j W R n, length R = 8%nat -> let '(j', W', R') := calls_second p calls j W R in
  j' = (8 + j)%nat /\ length R' = 8%nat /\ sha2_second p (8 + n) j W R = sha2_second p n j' W' R'.
Proof.
  intros j W R n L. pose proof (second_calls calls j W R L calls_in calls_chain a_h eq_refl n) as H.
  destruct (calls_second p calls j W R) as [[j' W'] R']. destruct H as (J & LR & E). split; [exact J|]. split; [exact LR|].
  rewrite (view_all R L) in E. change (fold_left (fun a _ => next a) calls a_h) with a_h in E. rewrite (view_all R' LR) in E. exact E.
Qed.
Lemma second_loop : forall k fuel j W R, length R = 8%nat -> (k <= fuel)%nat -> (j + 8 * S k = s_rounds p)%nat -> loop_second p fuel j W R = sha2_second p (8 * S k) j W R.
Proof.
  induction k as [|k IH]; intros fuel j W R L F E.
  - pose proof (second_body j W R 0 L) as B. change (8 * 1)%nat with (8 + 0)%nat.
    destruct fuel as [|fuel]; cbn [loop_second]; destruct (calls_second p calls j W R) as [[j' W'] R']; destruct B as (J & _ & ->); [reflexivity|].
    destruct (Nat.ltb_spec j' (s_rounds p)); [lia|reflexivity].
  - destruct fuel as [|fuel]; [lia|]. pose proof (second_body j W R (8 * S k) L) as B. replace (8 * S (S k))%nat with (8 + 8 * S k)%nat by lia. cbn [loop_second].
    destruct (calls_second p calls j W R) as [[j' W'] R']. destruct B as (J & LR & B). rewrite B. destruct (Nat.ltb_spec j' (s_rounds p)); [|lia]. apply IH; [exact LR|lia|lia].
Qed.
Lemma unrolled_same : forall k st data, (s_rounds p = 24 + 8 * k)%nat -> length st = 8%nat -> unrolled_Transform p st data = sha2_Transform p st data.
Proof.
  intros k st data E L. unfold unrolled_Transform, sha2_Transform.
  assert (A : forall f W0, exists W R, loop_first p (S f) 0 data W0 st = (16%nat, W, R) /\ length R = 8%nat /\ sha2_first p 16 0 data W0 st = (W, R)).
  { intros f W0. pose proof (first_body 0 data W0 st 8 L) as B1. change (8 + 8)%nat with 16%nat in B1. cbn [loop_first].
    destruct (calls_first p calls 0 data W0 st) as [[j1 W1] R1]. destruct B1 as (-> & L1 & B1). change (8 + 0 <? 16)%nat with true. cbn iota.
    pose proof (first_body (8 + 0) data W1 R1 0 L1) as B2. change (8 + 0)%nat with 8%nat in *. rewrite B1.
    destruct f; cbn [loop_first]; destruct (calls_first p calls 8 data W1 R1) as [[j2 W2] R2]; destruct B2 as (-> & L2 & B2); exists W2, R2; split; auto. }
  destruct (A 15%nat (zeros 16)) as (W & R & A' & LR & B). rewrite A', B. rewrite (second_loop k (s_rounds p) 16 W R LR) by lia. replace (s_rounds p - 16)%nat with (8 * S k)%nat by lia. reflexivity.
Qed.
End Unrolled.
Lemma unrolled_256 : forall st data, length st = 8%nat -> unrolled_Transform SHA_256 st data = sha2_Transform SHA_256 st data.
Proof. intros st data L. apply (unrolled_same SHA_256 5); [reflexivity|exact L]. Qed.
Lemma unrolled_512 : forall st data, length st = 8%nat -> unrolled_Transform SHA_512 st data = sha2_Transform SHA_512 st data.
Proof. intros st data L. apply (unrolled_same SHA_512 7); [reflexivity|exact L]. Qed.

(** ** The whole hash *)
From Verif Require Import Spec.Codecs Model.Text Proof.HDReal.
Section Hash.
Variable p : sha2.
Hypothesis same : forall st data, length st = 8%nat -> unrolled_Transform p st data = sha2_Transform p st data.
Hypothesis H8 : length (s_H p) = 8%nat.
Lemma u_block_same : forall c, length (h_state c) = 8%nat -> u_block p c = sha2_block p c.
Proof. intros c L. unfold u_block, sha2_block. rewrite same by exact L. reflexivity. Qed.
Lemma u_blocks_same : forall fuel c data, length (h_state c) = 8%nat -> u_blocks p fuel c data = sha2_blocks p fuel c data.
Proof.
  induction fuel as [|fuel IH]; intros c data L; cbn [u_blocks sha2_blocks]; [reflexivity|]. destruct (_ <=? _); [|reflexivity].
  rewrite u_block_same by exact L. apply IH. cbn [sha2_count sha2_block h_state]. rewrite transform_len. exact L.
Qed.
Lemma u_update_same : forall c data, length (h_state c) = 8%nat -> u_Update p c data = sha2_Update p c data.
Proof.
  intros c data L. unfold u_Update, sha2_Update. destruct (len data =? 0); [reflexivity|]. destruct (_ <? _); [|apply u_blocks_same, L]. destruct (_ <=? _); [|reflexivity].
  rewrite u_block_same by exact L. apply u_blocks_same. cbn [sha2_count sha2_copy sha2_block h_state]. rewrite transform_len. exact L.
Qed.
Lemma u_final_same : forall c, length (h_state c) = 8%nat -> u_Final p c = sha2_Final p c.
Proof.
  intros c L. unfold u_Final, sha2_Final. destruct (Nat.ltb _ _).
  - rewrite u_block_same by exact L. rewrite same by (cbn [sha2_block h_state]; rewrite transform_len; exact L). reflexivity.
  - rewrite same by exact L. reflexivity.
Qed.
Lemma u_hash_same : forall chunks, u_hash p chunks = fst (sha2_Final p (fold_left (sha2_Update p) chunks (sha2_Init p))).
Proof.
  intros chunks. unfold u_hash. assert (A : forall c, length (h_state c) = 8%nat -> fold_left (u_Update p) chunks c = fold_left (sha2_Update p) chunks c /\ length (h_state (fold_left (sha2_Update p) chunks c)) = 8%nat).
  { induction chunks as [|d t IH]; intros c L; cbn [fold_left]; [auto|]. rewrite u_update_same by exact L. apply IH. rewrite update_st. exact L. }
  destruct (A (sha2_Init p) H8) as [-> L]. rewrite u_final_same by exact L. reflexivity.
Qed.
End Hash.
(** ** Text *)
Section Text.
Variable p : sha2.
Hypothesis H8 : length (s_H p) = 8%nat.
Lemma hex_pair : forall x, byte_ok x -> [nth (Z.to_nat (Z.shiftr (Z.land x 0xf0) 4)) hex_digits 0; nth (Z.to_nat (Z.land x 0x0f)) hex_digits 0] =
  [nth (Z.to_nat (x / 16)) hex_alphabet 0; nth (Z.to_nat (x mod 16)) hex_alphabet 0].
Proof.
  intros x B. unfold byte_ok in B. assert (S : forall x, 0 <= x < Z.of_nat 256 -> ((Z.shiftr (Z.land x 0xf0) 4 =? x / 16) && (Z.land x 0x0f =? x mod 16)) = true) by (apply zrange_sweep; vm_compute; reflexivity).
  specialize (S x ltac:(lia)). apply andb_true_iff in S as [A C]. apply Z.eqb_eq in A, C. rewrite A, C. reflexivity.
Qed.
Lemma hex_all : forall d, bytes_ok d -> flat_map (fun x => [nth (Z.to_nat (Z.shiftr (Z.land x 0xf0) 4)) hex_digits 0; nth (Z.to_nat (Z.land x 0x0f)) hex_digits 0]) d = hex_string d.
Proof. induction d as [|x d IH]; intros B; [reflexivity|]. apply Forall_cons_iff in B as [B1 B2]. unfold hex_string. cbn [flat_map]. rewrite (hex_pair x B1). cbn [app]. do 2 f_equal. apply IH, B2. Qed.
Lemma hex_len : forall d, len (hex_string d) = 2 * len d.
Proof. induction d as [|x d IH]; [reflexivity|]. change (hex_string (x :: d)) with ([nth (Z.to_nat (x / 16)) hex_alphabet 0; nth (Z.to_nat (x mod 16)) hex_alphabet 0] ++ hex_string d). rewrite len_app, IH, len_cons. unfold len. cbn [length]. lia. Qed.
Lemma cstr_hex : forall d rest, bytes_ok d -> cstr (hex_string d ++ 0 :: rest) = hex_string d.
Proof.
  assert (N : forall i, 0 <= i < 16 -> (nth (Z.to_nat i) hex_alphabet 0 =? 0) = false).
  { intros i R. assert (S : forall i, 0 <= i < Z.of_nat 16 -> negb (nth (Z.to_nat i) hex_alphabet 0 =? 0) = true) by (apply zrange_sweep; vm_compute; reflexivity). specialize (S i ltac:(lia)). apply negb_true_iff in S. exact S. }
  induction d as [|x d IH]; intros rest B; [reflexivity|]. apply Forall_cons_iff in B as [B1 B2]. unfold byte_ok in B1.
  change (hex_string (x :: d)) with (nth (Z.to_nat (x / 16)) hex_alphabet 0 :: nth (Z.to_nat (x mod 16)) hex_alphabet 0 :: hex_string d). cbn [app cstr].
  rewrite !N by dlia. do 2 f_equal. apply IH, B2.
Qed.
Lemma data_text : forall data b, 16 * Z.of_nat (s_bytes p) < len b -> exists out c off, sha2_Data p data (Some b) = Ok (Some out, c, off) /\
  cstr out = hex_string (sha2_hash p data) /\ skipn (16 * s_bytes p + 1) out = skipn (16 * s_bytes p + 1) b /\ off = 16 * Z.of_nat (s_bytes p) /\ cstr (skipn (Z.to_nat off) out) = [].
Proof.
  intros data b L. unfold sha2_Data, sha2_End, sha2_hash. destruct (final_shape p (sha2_Update p (sha2_Init p) data)) as [LD BD]; [rewrite update_st; exact H8|].
  destruct (sha2_Final p (sha2_Update p (sha2_Init p) data)) as [d c]. cbn [fst] in *. rewrite hex_all by exact BD.
  assert (LH : len (hex_string d) = 16 * Z.of_nat (s_bytes p)) by (rewrite hex_len; unfold len; lia).
  assert (LT : len (hex_string d ++ [0]) = 16 * Z.of_nat (s_bytes p) + 1) by (rewrite len_app, LH; reflexivity).
  destruct (Z.ltb_spec (len b) (len (hex_string d ++ [0]))); [lia|]. eexists _, c, _. split; [reflexivity|]. rewrite LT. split; [|split; [|split]].
  - rewrite <- app_assoc. apply cstr_hex, BD.
  - replace (16 * s_bytes p + 1)%nat with (length (hex_string d ++ [0])) by (unfold len in LT; lia). rewrite skipn_app, skipn_all, Nat.sub_diag. reflexivity.
  - lia.
  - rewrite <- app_assoc. replace (Z.to_nat (16 * Z.of_nat (s_bytes p) + 1 - 1)) with (length (hex_string d)) by (unfold len in LH; lia). rewrite skipn_app, skipn_all, Nat.sub_diag. reflexivity.
Qed.
Lemma data_short : forall data b, len b <= 16 * Z.of_nat (s_bytes p) -> sha2_Data p data (Some b) = UB.
Proof.
  intros data b L. unfold sha2_Data, sha2_End. destruct (final_shape p (sha2_Update p (sha2_Init p) data)) as [LD BD]; [rewrite update_st; exact H8|].
  destruct (sha2_Final p (sha2_Update p (sha2_Init p) data)) as [d c]. cbn [fst] in *. rewrite hex_all by exact BD.
  assert (LT : len (hex_string d ++ [0]) = 16 * Z.of_nat (s_bytes p) + 1) by (rewrite len_app, hex_len; unfold len; cbn [length]; lia).
  destruct (Z.ltb_spec (len b) (len (hex_string d ++ [0]))); [reflexivity|lia].
Qed.
End Text.
Lemma u256 : forall chunks, u_hash SHA_256 chunks = fst (sha2_Final SHA_256 (fold_left (sha2_Update SHA_256) chunks (sha2_Init SHA_256))).
Proof. exact (u_hash_same SHA_256 unrolled_256 eq_refl). Qed.
Lemma u512 : forall chunks, u_hash SHA_512 chunks = fst (sha2_Final SHA_512 (fold_left (sha2_Update SHA_512) chunks (sha2_Init SHA_512))).
Proof. exact (u_hash_same SHA_512 unrolled_512 eq_refl). Qed.

From Verif Require Import Spec.Hash Proof.HashProps.
Lemma u256_fips : forall K H chunks, fips_constants fips256 K H -> Forall bytes_ok chunks -> len (concat chunks) < 2 ^ 61 ->
  u_hash SHA_256 chunks = fips_hash fips256 K H (concat chunks).
Proof. intros K H chunks C B L. rewrite u256. exact (sha256_any K H chunks C B L). Qed.
Lemma u512_fips : forall K H chunks, fips_constants fips512 K H -> Forall bytes_ok chunks -> len (concat chunks) < 2 ^ 125 -> Forall (fun d => len d < 2 ^ 61) chunks ->
  u_hash SHA_512 chunks = fips_hash fips512 K H (concat chunks).
Proof. intros K H chunks C B L F. rewrite u512. exact (sha512_any K H chunks C B L F). Qed.
Lemma data_texts : forall data b,
  (64 < len b -> exists out c off, sha2_Data SHA_256 data (Some b) = Ok (Some out, c, off) /\ cstr out = hex_string (sha256 data) /\ skipn 65 out = skipn 65 b) /\
  (128 < len b -> exists out c off, sha2_Data SHA_512 data (Some b) = Ok (Some out, c, off) /\ cstr out = hex_string (sha512 data) /\ skipn 129 out = skipn 129 b).
Proof.
  intros data b. split; intros L.
  - destruct (data_text SHA_256 eq_refl data b L) as (out & c & off & E & T & R & _). exists out, c, off. split; [exact E|]. split; [exact T|exact R].
  - destruct (data_text SHA_512 eq_refl data b L) as (out & c & off & E & T & R & _). exists out, c, off. split; [exact E|]. split; [exact T|exact R].
Qed.
Lemma returned_any : forall p data b out c off, length (s_H p) = 8%nat -> sha2_Data p data (Some b) = Ok (Some out, c, off) -> cstr (skipn (Z.to_nat off) out) = [].
Proof.
  intros p data b out c off H8 E. destruct (Z.ltb_spec (16 * Z.of_nat (s_bytes p)) (len b)) as [L|L].
  - destruct (data_text p H8 data b L) as (out' & c' & off' & E' & _ & _ & _ & T). rewrite E in E'. injection E' as <- <- <-. exact T.
  - rewrite (data_short p H8 data b L) in E. discriminate.
Qed.
Lemma returned_empty : forall p data b out c off, p = SHA_256 \/ p = SHA_512 -> sha2_Data p data (Some b) = Ok (Some out, c, off) -> cstr (skipn (Z.to_nat off) out) = [].
Proof. intros p data b out c off H. apply returned_any. destruct H as [-> | ->]; reflexivity. Qed.
