(** SHA-2: the transform is the FIPS compression function, and buffering is transparent. *)
From Verif Require Import Base.Bytes Base.BytesFacts Base.Groups Spec.Codecs Spec.Hash.
From Verif Require Import Model.Hash Proof.IntVarint Proof.HashWords.
Require Import Lia.
Open Scope Z_scope.

(** Lists. *)
Lemma zeros_length : forall n, length (zeros n) = n. Proof. intro. apply repeat_length. Qed.
Lemma set_nth_len : forall l i v, length (set_nth l i v) = length l.
Proof. induction l; intros [|i] v; cbn; auto. Qed.
Lemma nth_set_same : forall l i v, (i < length l)%nat -> nth i (set_nth l i v) 0 = v.
Proof. induction l; intros [|i] v L; cbn [length] in L; try lia; cbn; auto. apply IHl. lia. Qed.
Lemma nth_set_other : forall l i j v, i <> j -> nth j (set_nth l i v) 0 = nth j l 0.
Proof. induction l; intros [|i] [|j] v N; cbn; auto; try lia. Qed.
Lemma Forall_nth0 : forall (P : Z -> Prop) l i, Forall P l -> P 0 -> P (nth i l 0).
Proof. intros P l i H H0. revert i. induction H; intros [|i]; cbn; auto. Qed.
Lemma firstn_S_nth : forall (l : list Z) j, (j < length l)%nat ->
  firstn (S j) l = firstn j l ++ [nth j l 0].
Proof. induction l; intros [|j] L; cbn [length] in L; try lia; cbn; auto. f_equal. apply IHl. lia. Qed.
Lemma skipn_nth : forall (l : list Z) j, (j < length l)%nat -> skipn j l = nth j l 0 :: skipn (S j) l.
Proof. induction l; intros [|j] L; cbn [length] in L; try lia; [reflexivity|]. cbn [skipn nth]. apply IHl. lia. Qed.
Lemma combine_app2 : forall A B (a1 a2 : list A) (b1 b2 : list B), length a1 = length b1 ->
  combine (a1 ++ a2) (b1 ++ b2) = combine a1 b1 ++ combine a2 b2.
Proof. induction a1; intros; destruct b1; try discriminate; cbn; auto. rewrite IHa1; auto. Qed.

Lemma blit_len : forall arr off l, (off + length l <= length arr)%nat -> length (blit arr off l) = length arr.
Proof. intros. unfold blit. rewrite !app_length, firstn_length, skipn_length. lia. Qed.
Lemma blit_first : forall arr off l, (off <= length arr)%nat ->
  firstn (off + length l) (blit arr off l) = firstn off arr ++ l.
Proof.
  intros. unfold blit. rewrite app_assoc. apply firstn_app_len.
  rewrite app_length, firstn_length. lia.
Qed.
Lemma blit_full : forall arr off l, (off + length l = length arr)%nat -> blit arr off l = firstn off arr ++ l.
Proof. intros. unfold blit. rewrite skipn_all2 by lia. rewrite app_nil_r. reflexivity. Qed.

Lemma len_nat : forall (l : list Z), len l = Z.of_nat (length l). Proof. reflexivity. Qed.

Section Sha.
Variable p : sha2.
Variable F : fips.
Notation w := (f_w F).
Notation K := (s_K p).
Hypothesis Hw : s_w p = w.
Hypothesis Hb : w = 8 * Z.of_nat (s_bytes p).
Hypothesis Hb0 : (0 < s_bytes p)%nat.
Hypothesis HR : s_rounds p = f_rounds F.
Hypothesis HR16 : (16 <= f_rounds F)%nat.
Hypothesis HK : length K = f_rounds F.
Hypothesis HS0 : forall x, word_ok w x -> Sigma p (s_S0 p) x = f_Sum0 F x.
Hypothesis HS1 : forall x, word_ok w x -> Sigma p (s_S1 p) x = f_Sum1 F x.
Hypothesis Hs0 : forall x, word_ok w x -> sigma p (s_s0 p) x = f_sig0 F x.
Hypothesis Hs1 : forall x, word_ok w x -> sigma p (s_s1 p) x = f_sig1 F x.
Hypothesis Hrev : forall l, bytes_ok l -> length l = s_bytes p -> s_rev p (le l) = be_val 256 l.

Lemma w_pos : 0 < 2 ^ w. Proof. apply Z.pow_pos_nonneg; lia. Qed.
Lemma word_mod : forall x, word p x = x mod 2 ^ w. Proof. intros. unfold word. rewrite Hw. auto. Qed.
Lemma mod_ok : forall x, word_ok w (x mod 2 ^ w). Proof. intros. apply Z.mod_pos_bound, w_pos. Qed.
Lemma zero_ok : word_ok w 0. Proof. unfold word_ok. pose proof w_pos. lia. Qed.
Definition regs_ok (r : list Z) : Prop := length r = 8%nat /\ Forall (word_ok w) r.

Lemma round_eq : forall k x r, regs_ok r -> sha2_round p k x r = fips_round F r (k, x) /\ regs_ok (fips_round F r (k, x)).
Proof.
  intros k x r [L O].
  destruct r as [|a [|b [|c [|d [|e [|f [|g [|h [|]]]]]]]]]; try discriminate.
  assert (OO : word_ok w a /\ word_ok w b /\ word_ok w c /\ word_ok w d /\ word_ok w e /\ word_ok w f /\ word_ok w g /\ word_ok w h).
  { repeat match goal with H : Forall _ (_ :: _) |- _ => inversion_clear H end. tauto. }
  destruct OO as (Ha & Hb' & Hc & Hd & He & Hf & Hg & Hh).
  unfold sha2_round, fips_round. cbv zeta. cbn [fst snd]. split.
  - rewrite !word_mod, HS0, HS1 by auto. unfold Ch, ch, Maj, maj. rewrite word_mod.
    rewrite lnot_mod by (auto; lia).
    f_equal; [|do 4 f_equal].
    + rewrite Zplus_mod_idemp_l, Zplus_mod_idemp_r. reflexivity.
    + rewrite Zplus_mod_idemp_r. reflexivity.
  - split; [reflexivity|]. repeat (apply Forall_cons || apply Forall_nil); auto using mod_ok.
Qed.
Lemma fold_round_ok : forall kws r, regs_ok r -> regs_ok (fold_left (fips_round F) kws r).
Proof.
  induction kws as [|[k x] kws]; intros r O; cbn [fold_left]; auto.
  apply IHkws. apply round_eq; auto.
Qed.

(** The first loop. *)
Lemma first_eq : forall n j data W r, length data = 16%nat -> length W = 16%nat -> (j + n = 16)%nat ->
  firstn j W = firstn j data -> regs_ok r ->
  sha2_first p n j data W r
  = (data, fold_left (fips_round F) (combine (skipn j (firstn 16 K)) (skipn j data)) r).
Proof.
  induction n; intros j data W r LD LW Hj E O.
  - replace j with 16%nat in * by lia. cbn [sha2_first].
    rewrite (skipn_all2 data), (skipn_all2 (firstn 16 K)) by (rewrite ?firstn_length; lia).
    rewrite !firstn_all2 in E by lia. subst. reflexivity.
  - cbn [sha2_first]. destruct (round_eq (nth j K 0) (nth j data 0) r O) as [E1 O1].
    rewrite E1. rewrite IHn; auto; try lia.
    + f_equal. assert (LK : (j < length (firstn 16 K))%nat) by (rewrite firstn_length; lia).
      rewrite (skipn_nth (firstn 16 K) j), (skipn_nth data j) by lia. cbn [combine fold_left].
      assert (EK : nth j (firstn 16 K) 0 = nth j K 0).
      { transitivity (nth j (firstn 16 K ++ skipn 16 K) 0); [symmetry; apply app_nth1; auto|].
        rewrite firstn_skipn. reflexivity. }
      rewrite EK. reflexivity.
    + rewrite set_nth_len. auto.
    + rewrite !firstn_S_nth by (rewrite ?set_nth_len; lia). rewrite nth_set_same by lia. f_equal.
      rewrite <- E. clear - Hj LW. assert (Hlt : (j < length W)%nat) by lia. clear Hj LW.
      generalize (nth j data 0). intro v. revert j Hlt. induction W; intros [|j] Hlt; cbn in *; auto; try lia.
      f_equal. apply IHW. lia.
Qed.

(** The second loop works on the last sixteen words of the schedule. *)
Lemma schedule_app : forall n W, exists t, schedule F n W = W ++ t /\ length t = n.
Proof.
  induction n; intros W; cbn [schedule]. { exists []. rewrite app_nil_r. auto. }
  edestruct IHn as (t & E & L). rewrite E, <- app_assoc. eexists. split; [reflexivity|].
  rewrite app_length, L. reflexivity.
Qed.
Lemma second_eq : forall n j W Ws r, length W = 16%nat -> length Ws = j -> (16 <= j)%nat -> (j + n)%nat = length K ->
  (forall i, (i < 16)%nat -> nth ((j + i) mod 16) W 0 = nth (j - 16 + i) Ws 0) ->
  Forall (word_ok w) Ws -> regs_ok r ->
  sha2_second p n j W r
  = fold_left (fips_round F) (combine (skipn j K) (skipn j (schedule F n Ws))) r.
Proof.
  induction n; intros j W Ws r LW LWs Hj Hn E OW O.
  - cbn [sha2_second]. rewrite (skipn_all2 K) by lia. reflexivity.
  - cbn [sha2_second schedule]. rewrite LWs.
    assert (OWn : forall i, word_ok w (nth i Ws 0)) by (intro; apply Forall_nth0; auto using zero_ok).
    assert (E1 : word p (nth (j mod 16) W 0 + (sigma p (s_s1 p) (nth ((j + 14) mod 16) W 0)
                   + nth ((j + 9) mod 16) W 0 + sigma p (s_s0 p) (nth ((j + 1) mod 16) W 0)))
            = (f_sig1 F (nth (j - 2) Ws 0) + nth (j - 7) Ws 0 + f_sig0 F (nth (j - 15) Ws 0)
               + nth (j - 16) Ws 0) mod 2 ^ w).
    { rewrite word_mod. replace (j mod 16)%nat with ((j + 0) mod 16)%nat by (rewrite Nat.add_0_r; reflexivity).
      rewrite !E by lia.
      replace (j - 16 + 0)%nat with (j - 16)%nat by lia. replace (j - 16 + 14)%nat with (j - 2)%nat by lia.
      replace (j - 16 + 9)%nat with (j - 7)%nat by lia. replace (j - 16 + 1)%nat with (j - 15)%nat by lia.
      rewrite Hs0, Hs1 by auto. f_equal. ring. }
    rewrite E1. set (x := (_ mod 2 ^ w)).
    destruct (round_eq (nth j K 0) x r O) as [E2 O2]. rewrite E2.
    rewrite (IHn (S j) (set_nth W (j mod 16) x) (Ws ++ [x])); auto; try lia.
    + rewrite (skipn_nth K j) by lia.
      destruct (schedule_app n (Ws ++ [x])) as (t & ES & Lt). rewrite ES.
      rewrite (skipn_app_len _ (Ws ++ [x]) t (S j)) by (rewrite app_length; cbn [length]; lia).
      rewrite <- app_assoc. rewrite (skipn_app_len _ Ws ([x] ++ t) j) by auto.
      cbn [app combine fold_left]. reflexivity.
    + rewrite set_nth_len. auto.
    + rewrite app_length. cbn [length]. lia.
    + intros i Hi. assert (M16 : (j mod 16 < 16)%nat) by (apply Nat.mod_upper_bound; lia).
      destruct (Nat.eq_dec i 15).
      * subst i. replace (S j + 15)%nat with (j + 1 * 16)%nat by lia. rewrite Nat.mod_add by lia.
        rewrite nth_set_same by lia. rewrite app_nth2 by lia.
        replace (S j - 16 + 15 - length Ws)%nat with 0%nat by lia. reflexivity.
      * rewrite nth_set_other.
        { replace (S j + i)%nat with (j + S i)%nat by lia. rewrite E by lia.
          rewrite app_nth1 by lia. f_equal. lia. }
        intro C. replace (S j + i)%nat with (j + S i)%nat in C by lia.
        pose proof (Nat.div_mod j 16 ltac:(lia)). pose proof (Nat.div_mod (j + S i) 16 ltac:(lia)).
        rewrite <- C in H0. assert (16 * ((j + S i) / 16 - j / 16) = S i)%nat by nia. nia.
    + apply Forall_app. split; auto. constructor; [|constructor]. apply mod_ok.
Qed.

Lemma Transform_eq : forall st data, regs_ok st -> length data = 16%nat -> Forall (word_ok w) data ->
  sha2_Transform p st data
  = map (fun xy => (fst xy + snd xy) mod 2 ^ w)
        (combine st (fold_left (fips_round F) (combine K (schedule F (f_rounds F - 16) data)) st)).
Proof.
  intros st data O L OD. unfold sha2_Transform. rewrite first_eq by (auto; reflexivity).
  rewrite (second_eq _ 16 data data); auto; try lia.
  - rewrite !skipn_O.
    destruct (schedule_app (s_rounds p - 16) data) as (t & ES & Lt). rewrite HR in *. rewrite ES.
    rewrite <- (firstn_skipn 16 K) at 3.
    rewrite combine_app2 by (rewrite firstn_length; lia). rewrite fold_left_app.
    rewrite (skipn_app_len _ data) by auto.
    generalize (fold_left (fips_round F) (combine (skipn 16 K) t)
      (fold_left (fips_round F) (combine (firstn 16 K) data) st)).
    clear - Hw. revert st. induction st; intros [|y l]; cbn [add_words combine map]; auto.
    rewrite IHst, word_mod. reflexivity.
  - intros i Hi. replace (16 + i)%nat with (i + 1 * 16)%nat by lia. rewrite Nat.mod_add by lia.
    rewrite Nat.mod_small by lia. reflexivity.
  - apply fold_round_ok; auto.
Qed.

Notation B := (block_len p).
Notation nb := (s_bytes p).
Lemma nb_eq : Z.to_nat (w / 8) = nb.
Proof. rewrite Hb. rewrite Z.mul_comm, Z.div_mul by lia. apply Nat2Z.id. Qed.
Lemma pow_w : 2 ^ w = 256 ^ Z.of_nat nb.
Proof. rewrite Hb. rewrite Z.pow_mul_r by lia. reflexivity. Qed.
Lemma B_eq : B = (16 * nb)%nat. Proof. reflexivity. Qed.
Lemma short_eq : short_len p = (14 * nb)%nat. Proof. unfold short_len. rewrite B_eq. lia. Qed.

Lemma be_words_ok : forall q l, bytes_ok l -> length l = (q * nb)%nat ->
  Forall (word_ok w) (map (be_val 256) (groups nb l)).
Proof.
  intros q l O L. apply Forall_forall. intros x Hx. apply in_map_iff in Hx as (g & <- & Hg).
  destruct (groups_all _ nb q l Hb0 L) as (_ & A & _).
  pose proof (groups_bytes nb q l Hb0 L O) as G.
  rewrite Forall_forall in A, G. unfold word_ok. rewrite pow_w.
  rewrite <- (A g Hg). pose proof (be_val_bound 256 g ltac:(lia)). unfold len in H. apply H.
  specialize (G g Hg). revert G. apply Forall_impl. intros. auto.
Qed.
Lemma rev_words : forall q l, bytes_ok l -> length l = (q * nb)%nat ->
  map (s_rev p) (mem_words nb l) = map (be_val 256) (groups nb l).
Proof.
  intros q l O L. unfold mem_words. rewrite map_map. apply map_ext_in. intros g Hg.
  destruct (groups_all _ nb q l Hb0 L) as (_ & A & _).
  pose proof (groups_bytes nb q l Hb0 L O) as G. rewrite Forall_forall in A, G. apply Hrev; auto.
Qed.

Notation comp := (fips_block F K).
Lemma block_eq : forall st l, regs_ok st -> bytes_ok l -> length l = B ->
  sha2_Transform p st (map (be_val 256) (groups nb l)) = comp st l /\ regs_ok (comp st l).
Proof.
  intros st l O OL L. rewrite B_eq in L.
  pose proof (be_words_ok 16 l OL L) as OW.
  destruct (groups_all _ nb 16 l Hb0 L) as (A & _ & _).
  unfold fips_block. rewrite nb_eq. split.
  - apply Transform_eq; auto. rewrite map_length. auto.
  - split.
    + rewrite map_length, combine_length. pose proof O as [L8 _]. rewrite L8.
      match goal with |- context [fold_left ?f ?l ?s] => destruct (fold_round_ok l s) as [L8' _] end.
      { auto. }
      rewrite L8'. reflexivity.
    + apply Forall_forall. intros x Hx. apply in_map_iff in Hx as (y & <- & _). apply mod_ok.
Qed.
Lemma fold_comp_ok : forall q l st, length l = (q * B)%nat -> bytes_ok l -> regs_ok st ->
  regs_ok (fold_left comp (groups B l) st).
Proof.
  assert (HB : (0 < B)%nat) by (rewrite B_eq; lia).
  induction q; intros l st L OL O.
  - destruct l; [auto|cbn in L; lia].
  - rewrite <- (firstn_skipn B l).
    assert (LF : length (firstn B l) = B) by (rewrite firstn_length; lia).
    rewrite groups_cons by auto. cbn [fold_left]. apply IHq.
    + rewrite skipn_length. lia.
    + apply bytes_ok_skipn; auto.
    + apply block_eq; auto using bytes_ok_firstn.
Qed.

(** * Buffering *)
Variable cnt : Z * Z -> Z -> Prop.     (* the counter stands for this number of bytes *)
Variable lim : Z.
Hypothesis Hadd : forall c n k, cnt c n -> 0 <= n -> 0 <= k < 2 ^ 61 -> n + k < lim -> cnt (s_add p c (k * 8)) (n + k).
Hypothesis Hused : forall c n, cnt c n -> 0 <= n -> Z.shiftr (fst c) 3 mod Z.of_nat B = n mod Z.of_nat B.
Hypothesis Hlen : forall c n, cnt c n -> 0 <= n < lim ->
  s_len p c = map (be_val 256) (groups nb (be_bytes (2 * nb) (8 * n))).
Hypothesis HB32 : Z.of_nat B < 2 ^ 32.

Record rep (H : list Z) (c : hctx) (m : list Z) : Prop := mkRep {
  rep_parts : exists a r q, m = a ++ r /\ length a = (q * B)%nat /\ (length r < B)%nat /\
    h_state c = fold_left comp (groups B a) H /\ firstn (length r) (h_buf c) = r;
  rep_buf : length (h_buf c) = B;
  rep_cnt : cnt (h_count c) (len m);
  rep_bytes : bytes_ok m;
  rep_H : regs_ok H }.

Lemma HB0 : (0 < B)%nat. Proof. rewrite B_eq. lia. Qed.

(** One full buffer. *)
Lemma block_step : forall c, regs_ok (h_state c) -> bytes_ok (h_buf c) -> length (h_buf c) = B ->
  h_state (sha2_block p c) = comp (h_state c) (h_buf c) /\ length (h_buf (sha2_block p c)) = B /\
  h_count (sha2_block p c) = h_count c.
Proof.
  intros c O OB L. unfold sha2_block. cbv zeta. cbn [h_state h_buf h_count].
  rewrite (rev_words 16) by (auto; rewrite L; apply B_eq).
  split; [|split; [|reflexivity]].
  - apply block_eq; auto.
  - destruct (groups_all _ nb 16 (h_buf c) Hb0 ltac:(rewrite L; apply B_eq)) as (A & _ & _).
    rewrite B_eq. rewrite <- A. generalize (groups nb (h_buf c)). clear.
    induction l; [reflexivity|]. cbn [map flat_map length]. rewrite app_length, IHl.
    rewrite mem_bytes_le, le_bytes_length. lia.
Qed.

Lemma blocks_rep : forall H fuel c a data q, (length data < fuel)%nat ->
  bytes_ok (a ++ data) -> length a = (q * B)%nat -> h_state c = fold_left comp (groups B a) H ->
  length (h_buf c) = B -> cnt (h_count c) (len a) -> regs_ok H -> len (a ++ data) < lim -> len data < 2 ^ 61 ->
  rep H (sha2_blocks p fuel c data) (a ++ data).
Proof.
  intros H fuel. pose proof HB0 as HB. induction fuel; intros c a data q Lf OB La St Lb C OH LIM L61; [lia|].
  cbn [sha2_blocks]. apply bytes_ok_app in OB as [Oa Od].
  destruct (Z.leb_spec (Z.of_nat B) (len data)) as [G|G].
  - rewrite len_nat in G.
    rewrite <- (firstn_skipn B data) at 3. rewrite app_assoc.
    assert (LF : length (firstn B data) = B) by (rewrite firstn_length; lia).
    assert (OF : bytes_ok (firstn B data)) by (apply bytes_ok_firstn; auto).
    set (c1 := sha2_copy c 0 (firstn B data)).
    assert (Eb : h_buf c1 = firstn B data).
    { unfold c1, sha2_copy. cbn [h_buf]. rewrite blit_full by (cbn [Nat.add]; lia). reflexivity. }
    assert (Os : regs_ok (h_state c1)).
    { unfold c1. cbn [h_state sha2_copy]. rewrite St. apply (fold_comp_ok q); auto. }
    destruct (block_step c1) as (S1 & S2 & S3); auto; try (rewrite Eb; auto).
    assert (LFz : len (firstn B data) = Z.of_nat B) by (unfold len; rewrite LF; reflexivity).
    apply (IHfuel _ (a ++ firstn B data) (skipn B data) (S q)).
    + rewrite skipn_length. lia.
    + rewrite <- app_assoc, firstn_skipn. rewrite bytes_ok_app. auto.
    + rewrite app_length, La, LF. lia.
    + cbn [sha2_count h_state]. rewrite S1, Eb. cbn [c1 sha2_copy h_state]. rewrite St.
      rewrite (groups_app _ B q) by auto. rewrite (groups_one _ B (firstn B data)) by auto.
      rewrite fold_left_app. reflexivity.
    + cbn [sha2_count h_buf]. auto.
    + cbn [sha2_count h_count]. rewrite S3. cbn [c1 sha2_copy h_count].
      rewrite len_app, LFz.
      apply Hadd; auto. { apply len_nonneg. } { lia. }
      rewrite len_app in LIM. rewrite !len_nat in *. lia.
    + auto.
    + rewrite <- app_assoc, firstn_skipn. auto.
    + rewrite len_nat in *. rewrite skipn_length. lia.
  - rewrite len_nat in G. destruct (Z.ltb_spec 0 (len data)) as [G1|G1].
    + constructor.
      * exists a, data, q. repeat split; auto; try lia.
        cbn [sha2_count sha2_copy h_buf]. apply (blit_first _ 0). lia.
      * cbn [sha2_count sha2_copy h_buf]. rewrite blit_len; auto. cbn [Nat.add]. lia.
      * cbn [sha2_count sha2_copy h_count]. unfold u64. rewrite Z.mod_small.
        2:{ split; [lia|]. change (2 ^ 64) with (2 ^ 61 * 8). lia. }
        rewrite len_app in *. apply Hadd; auto; try apply len_nonneg. lia.
      * rewrite bytes_ok_app. auto.
      * auto.
    + assert (data = []) by (destruct data; auto; rewrite len_nat in G1; cbn [length] in G1; lia). subst.
      rewrite app_nil_r. constructor; auto.
      exists a, [], q. rewrite app_nil_r. repeat split; auto.
Qed.

Lemma used_nat : forall H c m, rep H c m ->
  Z.shiftr (fst (h_count c)) 3 mod Z.of_nat B = Z.of_nat (length m mod B).
Proof.
  intros H c m R. destruct R. rewrite (Hused _ _ rep_cnt0) by apply len_nonneg.
  rewrite len_nat. symmetry. apply Nat2Z.inj_mod.
Qed.
Lemma rest_len : forall (a r : list Z) q, length a = (q * B)%nat -> (length r < B)%nat ->
  (length (a ++ r) mod B = length r)%nat.
Proof.
  intros a r q La Lr. rewrite app_length, La, Nat.add_comm. pose proof HB0.
  rewrite Nat.mod_add by lia. apply Nat.mod_small. auto.
Qed.

Lemma Update_rep : forall H c m data, rep H c m -> bytes_ok data -> len (m ++ data) < lim ->
  len data < 2 ^ 61 -> rep H (sha2_Update p c data) (m ++ data).
Proof.
  intros H c m data R OD LIM L61. pose proof HB0 as HB. unfold sha2_Update.
  destruct (Z.eqb_spec (len data) 0) as [E0|E0].
  { destruct data; [|rewrite len_nat in E0; cbn [length] in E0; lia]. rewrite app_nil_r. auto. }
  rewrite (used_nat H c m R).
  destruct R as [(a & r & q & -> & La & Lr & St & Er) Lb C OM OH].
  rewrite (rest_len a r q) by auto. rewrite bytes_ok_app in OM. destruct OM as [Oa Or].
  assert (Hu : u32 (Z.of_nat (length r)) = Z.of_nat (length r)) by (apply Z.mod_small; lia).
  rewrite Hu.
  destruct (Z.ltb_spec 0 (Z.of_nat (length r))) as [G|G].
  - replace (Z.of_nat B - Z.of_nat (length r)) with (Z.of_nat (B - length r)) by lia.
    rewrite !Nat2Z.id.
    destruct (Z.leb_spec (Z.of_nat (B - length r)) (len data)) as [G1|G1]; rewrite len_nat in G1.
    + set (f := (B - length r)%nat) in *.
      assert (LF : length (firstn f data) = f) by (rewrite firstn_length; lia).
      set (c1 := sha2_count p (sha2_copy c (length r) (firstn f data)) (Z.of_nat f * 8)).
      assert (Eb : h_buf c1 = r ++ firstn f data).
      { cbn [c1 sha2_count sha2_copy h_buf]. rewrite blit_full by (unfold f in *; lia). rewrite Er. auto. }
      assert (LB1 : length (h_buf c1) = B) by (rewrite Eb, app_length; unfold f in *; lia).
      assert (OB1 : bytes_ok (h_buf c1)).
      { rewrite Eb, bytes_ok_app. auto using bytes_ok_firstn. }
      assert (Os : regs_ok (h_state c1)).
      { cbn [c1 sha2_count sha2_copy h_state]. rewrite St. apply (fold_comp_ok q); auto. }
      destruct (block_step c1 Os OB1 LB1) as (S1 & S2 & S3).
      rewrite <- (firstn_skipn f data) at 3. rewrite !app_assoc. rewrite <- (app_assoc a).
      apply (blocks_rep H _ _ (a ++ r ++ firstn f data) (skipn f data) (S q)); auto.
      * rewrite skipn_length. lia.
      * rewrite !bytes_ok_app. auto using bytes_ok_firstn, bytes_ok_skipn.
      * rewrite app_length, La. rewrite <- Eb, LB1. lia.
      * rewrite S1, Eb. cbn [c1 sha2_count sha2_copy h_state]. rewrite St.
        rewrite (groups_app _ B q) by auto. rewrite (groups_one _ B (r ++ _)) by (auto; rewrite <- Eb; auto).
        rewrite fold_left_app. reflexivity.
      * rewrite S3. cbn [c1 sha2_count sha2_copy h_count].
        replace (len (a ++ r ++ firstn f data)) with (len (a ++ r) + Z.of_nat f)
          by (rewrite !len_app, !len_nat, LF; lia).
        apply Hadd; auto; try apply len_nonneg. { rewrite len_nat in L61. lia. }
        rewrite len_app in LIM. rewrite (len_nat data) in LIM. lia.
      * replace (len ((a ++ r ++ firstn f data) ++ skipn f data)) with (len ((a ++ r) ++ data)); auto.
        rewrite <- !app_assoc, firstn_skipn. reflexivity.
      * rewrite len_nat, skipn_length. rewrite len_nat in L61. lia.
    + constructor.
      * exists a, (r ++ data), q. rewrite app_assoc. repeat split; auto.
        { rewrite app_length. lia. }
        cbn [sha2_count sha2_copy h_buf]. rewrite app_length, blit_first by lia. rewrite Er. auto.
      * cbn [sha2_count sha2_copy h_buf]. rewrite blit_len; auto. lia.
      * cbn [sha2_count sha2_copy h_count]. unfold u64. rewrite Z.mod_small.
        2:{ pose proof (len_nonneg _ data). change (2 ^ 64) with (2 ^ 61 * 8). lia. }
        rewrite (len_app _ (a ++ r)) in *. pose proof (len_nonneg _ data). apply Hadd; auto; try apply len_nonneg.
      * rewrite !bytes_ok_app. auto.
      * auto.
  - assert (r = []) by (destruct r; auto; cbn [length] in G; lia). subst r. rewrite app_nil_r in *.
    apply (blocks_rep H _ _ a data q); auto.
    rewrite bytes_ok_app. auto.
Qed.

(** * The end *)
Definition fips_pad (m : list Z) : list Z := md_pad B (2 * nb) be_bytes m.

Lemma digest_eq : forall st, regs_ok st ->
  flat_map (mem_bytes nb) (map (s_rev p) st) = flat_map (be_bytes nb) st.
Proof.
  intros st [_ O]. induction O as [|x st Hx O IH]; [reflexivity|]. cbn [map flat_map]. rewrite IH.
  f_equal. apply rev_store; auto. rewrite <- pow_w. auto.
Qed.
Lemma firstn_groups : forall n k q (l : list Z), (0 < n)%nat -> length l = (q * n)%nat -> (k <= q)%nat ->
  firstn k (groups n l) = groups n (firstn (k * n) l).
Proof.
  intros n k q l Hn L Hk.
  assert (LF : length (firstn (k * n) l) = (k * n)%nat) by (rewrite firstn_length; nia).
  rewrite <- (firstn_skipn (k * n) l) at 1. rewrite (groups_app _ n k) by auto.
  destruct (groups_all _ n k (firstn (k * n) l) Hn LF) as (A & _ & _).
  apply firstn_app_len. auto.
Qed.

(** The last transform, on a buffer whose first [short_len] bytes are set. *)
Lemma last_block : forall st buf c n, regs_ok st -> bytes_ok (firstn (short_len p) buf) -> length buf = B ->
  cnt c n -> 0 <= n < lim ->
  sha2_Transform p st (map (s_rev p) (firstn 14 (mem_words nb buf)) ++ s_len p c)
  = comp st (firstn (short_len p) buf ++ be_bytes (2 * nb) (8 * n)).
Proof.
  intros st buf c n O OB L C Hn. rewrite (Hlen c n) by auto. unfold mem_words.
  assert (LF : length (firstn (short_len p) buf) = (14 * nb)%nat).
  { rewrite firstn_length, short_eq, L, B_eq. lia. }
  rewrite firstn_map. rewrite (firstn_groups nb 14 16) by (auto; try lia; rewrite L; apply B_eq).
  rewrite <- short_eq.
  change (map (le) (groups nb (firstn (short_len p) buf))) with (mem_words nb (firstn (short_len p) buf)).
  rewrite (rev_words 14) by auto. rewrite <- map_app.
  rewrite <- (groups_app _ nb 14) by auto.
  apply block_eq; auto.
  - rewrite bytes_ok_app. split; auto. apply be_bytes_ok.
  - rewrite app_length, LF, be_bytes_length, B_eq. lia.
Qed.

Lemma pad_split : forall (m a r : list Z) q, m = a ++ r -> length a = (q * B)%nat -> (length r < B)%nat ->
  fips_pad m = a ++ (r ++ [128] ++ zeros (if Nat.ltb (short_len p) (S (length r))
      then (B - S (length r)) + short_len p else short_len p - S (length r)))
    ++ be_bytes (2 * nb) (8 * len m).
Proof.
  intros m a r q -> La Lr. unfold fips_pad, md_pad. rewrite <- !app_assoc. do 3 f_equal. f_equal. f_equal.
  f_equal. rewrite len_app, !len_nat, La. pose proof HB0 as HB. pose proof short_eq as Hs. pose proof B_eq.
  destruct (Nat.ltb_spec (short_len p) (S (length r))) as [G|G].
  - rewrite <- (Z.mod_add _ (Z.of_nat (q + 2))) by lia. rewrite Z.mod_small; [|nia].
    nia.
  - rewrite <- (Z.mod_add _ (Z.of_nat (q + 1))) by lia. rewrite Z.mod_small; [|nia].
    nia.
Qed.

Lemma blit_at : forall arr off l n, (off + length l <= n)%nat -> (n <= length arr)%nat ->
  firstn n (blit arr off l) = firstn off arr ++ l ++ firstn (n - (off + length l)) (skipn (off + length l) arr).
Proof.
  intros arr off l n H1 H2. unfold blit. rewrite !firstn_app. rewrite firstn_length.
  replace (Nat.min off (length arr)) with off by lia.
  rewrite (firstn_all2 (firstn off arr)) by (rewrite firstn_length; lia).
  rewrite (firstn_all2 l) by lia. do 3 f_equal. lia.
Qed.

Lemma Final_rep : forall H c m, rep H c m -> len m < lim ->
  fst (sha2_Final p c) = flat_map (be_bytes nb) (fold_left comp (groups B (fips_pad m)) H).
Proof.
  intros H c m R LIM. unfold sha2_Final. rewrite (used_nat H c m R). rewrite Nat2Z.id.
  destruct R as [(a & r & q & Em & La & Lr & St & Er) Lb C OM OH].
  assert (Eu : (length m mod B = length r)%nat) by (rewrite Em; apply (rest_len a r q); auto).
  rewrite !Eu. clear Eu.
  assert (Or : bytes_ok a /\ bytes_ok r) by (rewrite Em, bytes_ok_app in OM; auto). destruct Or as [Oa Or].
  rewrite (pad_split m a r q) by auto.
  set (u := length r) in *.
  pose proof HB0 as HB. pose proof short_eq as Hs. pose proof B_eq as HBe.
  assert (LM : 0 <= len m < lim) by (split; auto; apply len_nonneg).
  assert (Os : regs_ok (h_state c)) by (rewrite St; apply (fold_comp_ok q); auto).
  set (c1 := sha2_copy c u [128]).
  assert (Lb1 : length (h_buf c1) = B).
  { cbn [c1 sha2_copy h_buf]. rewrite blit_len; auto. cbn [length]. lia. }
  assert (Eb1 : firstn (S u) (h_buf c1) = r ++ [128]).
  { pose proof (blit_first (h_buf c) u [128] ltac:(lia)) as E. cbn [length] in E.
    replace (u + 1)%nat with (S u) in E by lia. cbn [c1 sha2_copy h_buf]. rewrite E.
    unfold u at 1. f_equal. exact Er. }
  assert (Cn : cnt (h_count c1) (len m)) by auto.
  rewrite (groups_app _ B q) by auto. rewrite fold_left_app. rewrite <- St.
  change (h_state c) with (h_state c1) in *.
  clearbody c1. clear C Lb St.
  destruct (Nat.ltb_spec (short_len p) (S u)) as [G|G].
  - set (b2 := wipe (h_buf c1) (S u) (B - S u)).
    assert (E2 : b2 = r ++ [128] ++ zeros (B - S u)).
    { unfold b2, wipe. rewrite blit_full by (rewrite ?zeros_length; lia).
      rewrite Eb1, <- app_assoc. reflexivity. }
    assert (Lb2 : length b2 = B).
    { rewrite E2, !app_length. rewrite ?zeros_length. cbn [length]. fold u. lia. }
    assert (O2 : bytes_ok b2).
    { rewrite E2, !bytes_ok_app. repeat split; auto using bytes_ok_zeros. constructor; [unfold byte_ok; lia|constructor]. }
    destruct (block_step (mkHctx (h_state c1) (h_count c1) b2)) as (S1 & S2 & S3); auto.
    cbn [h_state h_buf h_count] in S1, S2, S3.
    set (c2 := sha2_block p _) in *.
    assert (E3 : firstn (short_len p) (wipe (h_buf c2) 0 (short_len p - 0)) = zeros (short_len p)).
    { unfold wipe. rewrite Nat.sub_0_r.
      rewrite blit_at by (rewrite ?zeros_length; lia).
      cbn [Nat.add firstn app]. rewrite ?zeros_length, Nat.sub_diag. cbn [firstn].
      apply app_nil_r. }
    cbn [fst]. rewrite (last_block _ _ _ (len m)); auto.
    + rewrite E3, S1. rewrite digest_eq.
      * f_equal.
        replace ((r ++ [128] ++ zeros (B - S u + short_len p)) ++ be_bytes (2 * nb) (8 * len m))
          with (b2 ++ (zeros (short_len p) ++ be_bytes (2 * nb) (8 * len m))).
        2:{ rewrite E2. unfold zeros. rewrite repeat_app, <- !app_assoc. reflexivity. }
        rewrite groups_cons by auto. rewrite groups_one; auto.
        rewrite app_length, be_bytes_length. rewrite ?zeros_length. lia.
      * apply block_eq. { apply block_eq; auto. }
        { rewrite bytes_ok_app. split; auto using bytes_ok_zeros, be_bytes_ok. }
        rewrite app_length, be_bytes_length. rewrite ?zeros_length. lia.
    + rewrite S1. apply block_eq; auto.
    + rewrite E3. apply bytes_ok_zeros.
    + unfold wipe. rewrite blit_len; auto. rewrite ?zeros_length. lia.
  - cbn [fst].
    assert (E3 : firstn (short_len p) (wipe (h_buf c1) (S u) (short_len p - S u)) = r ++ [128] ++ zeros (short_len p - S u)).
    { unfold wipe. rewrite blit_at by (rewrite ?zeros_length; lia).
      rewrite ?zeros_length.
      replace (short_len p - (S u + (short_len p - S u)))%nat with 0%nat by lia. rewrite firstn_O.
      rewrite app_nil_r, Eb1, <- app_assoc. reflexivity. }
    assert (OO : bytes_ok (r ++ [128] ++ zeros (short_len p - S u))).
    { rewrite !bytes_ok_app. repeat split; auto using bytes_ok_zeros. constructor; [unfold byte_ok; lia|constructor]. }
    assert (LL : length ((r ++ [128] ++ zeros (short_len p - S u)) ++ be_bytes (2 * nb) (8 * len m)) = B).
    { rewrite !app_length, be_bytes_length. rewrite ?zeros_length. cbn [length]. fold u. lia. }
    rewrite (last_block _ _ _ (len m)); auto.
    + rewrite E3. rewrite digest_eq.
      * f_equal. rewrite groups_one; auto.
      * apply block_eq; auto. rewrite bytes_ok_app. split; auto using be_bytes_ok.
    + rewrite E3. auto.
    + unfold wipe. rewrite blit_len; auto. rewrite ?zeros_length. lia.
Qed.

Lemma fips_hash_pad : forall H m,
  fips_hash F K H m = flat_map (be_bytes nb) (fold_left comp (groups B (fips_pad m)) H).
Proof. intros. unfold fips_hash, fips_pad. rewrite nb_eq, B_eq. reflexivity. Qed.

(** Any sequence of writes. *)
Lemma writes_rep : forall H chunks c m, rep H c m -> Forall bytes_ok chunks ->
  len (m ++ concat chunks) < lim -> Forall (fun d => len d < 2 ^ 61) chunks ->
  rep H (fold_left (sha2_Update p) chunks c) (m ++ concat chunks).
Proof.
  intros H chunks. induction chunks as [|d chunks IH]; intros c m R O LIM L61.
  - cbn [fold_left concat]. rewrite app_nil_r. auto.
  - inversion_clear O. inversion_clear L61. cbn [fold_left concat] in *. rewrite app_assoc in *. apply IH; auto.
    apply Update_rep; auto. rewrite len_app in LIM. pose proof (len_nonneg _ (concat chunks)). lia.
Qed.
Lemma Init_rep : regs_ok (s_H p) -> cnt (0, 0) 0 -> rep (s_H p) (sha2_Init p) [].
Proof.
  intros O C. constructor; auto.
  - exists [], [], 0%nat. repeat split; auto. cbn. apply HB0.
  - cbn [sha2_Init h_buf]. apply repeat_length.
  - constructor.
Qed.
Lemma digest_len : forall H m, regs_ok H -> bytes_ok m -> length (fips_hash F K H m) = (8 * nb)%nat.
Proof.
  intros H m O OM. rewrite fips_hash_pad.
  assert (R : exists q, length (fips_pad m) = (q * B)%nat).
  { pose proof HB0 as HB.
    assert (E : exists a r q, m = a ++ r /\ length a = (q * B)%nat /\ (length r < B)%nat).
    { exists (firstn (length m / B * B) m), (skipn (length m / B * B) m), (length m / B)%nat.
      pose proof (Nat.div_mod (length m) B ltac:(lia)). pose proof (Nat.mod_upper_bound (length m) B ltac:(lia)).
      rewrite firstn_skipn. repeat split.
      - rewrite firstn_length. nia.
      - rewrite skipn_length. nia. }
    destruct E as (a & r & q & Em & La & Lr). rewrite (pad_split m a r q) by auto.
    pose proof short_eq as Hs. pose proof B_eq as HBe.
    destruct (Nat.ltb_spec (short_len p) (S (length r))).
    - exists (q + 2)%nat. rewrite !app_length, be_bytes_length. rewrite ?zeros_length. cbn [length]. nia.
    - exists (q + 1)%nat. rewrite !app_length, be_bytes_length. rewrite ?zeros_length. cbn [length]. nia. }
  destruct R as (q & Lq).
  destruct (fold_comp_ok q (fips_pad m) H) as [L8 _]; auto.
  { unfold fips_pad, md_pad. rewrite !bytes_ok_app. repeat split; auto using bytes_ok_zeros, be_bytes_ok.
    constructor; [unfold byte_ok; lia|constructor]. }
  rewrite <- L8. generalize (fold_left comp (groups B (fips_pad m)) H). clear.
  induction l; [reflexivity|]. cbn [flat_map length]. rewrite app_length, IHl, be_bytes_length. lia.
Qed.
Lemma digest_ok : forall H m, bytes_ok (fips_hash F K H m).
Proof.
  intros. rewrite fips_hash_pad. generalize (fold_left comp (groups B (fips_pad m)) H).
  induction l; [constructor|]. cbn [flat_map]. apply bytes_ok_app. split; auto. apply be_bytes_ok.
Qed.
End Sha.
