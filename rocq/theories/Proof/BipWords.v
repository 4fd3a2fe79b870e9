(** The word list and the word loops of bip39.c. *)
From Coq Require Import Lia.
From Verif Require Import Base.Bytes Base.BytesFacts Base.Groups Spec.Bip39 Model.WordList Model.Bip39 Proof.HashWords Proof.BipBits.
Open Scope Z_scope.

Definition letters (w : list Z) : bool := forallb (fun c => (97 <=? c) && (c <=? 122)) w.
Lemma wl_facts : ((len wordlist =? 2048) && increasing wordlist && forallb (fun w => (1 <=? len w) && (len w <=? 8) && letters w) wordlist)%bool = true.
Proof. vm_compute. reflexivity. Qed.
Lemma wl_len : len wordlist = 2048.
Proof. pose proof wl_facts as F. apply andb_prop in F as [F _]. apply andb_prop in F as [F _]. apply Z.eqb_eq. exact F. Qed.
Lemma wl_inc : increasing wordlist = true.
Proof. pose proof wl_facts as F. apply andb_prop in F as [F _]. apply andb_prop in F as [_ F]. exact F. Qed.
Lemma wl_word : forall w, In w wordlist -> 1 <= len w <= 8 /\ letters w = true.
Proof.
  pose proof wl_facts as F. apply andb_prop in F as [_ F]. intros w W.
  rewrite forallb_forall in F. apply F in W. apply andb_prop in W as [W L]. apply andb_prop in W as [W1 W2].
  apply Z.leb_le in W1, W2. auto.
Qed.
Lemma word_lt_irrefl : forall a, word_lt a a = false.
Proof. induction a; [reflexivity|]. cbn [word_lt]. rewrite Z.eqb_refl. auto. Qed.
Lemma word_lt_trans : forall a b c, word_lt a b = true -> word_lt b c = true -> word_lt a c = true.
Proof.
  induction a as [|x a IH]; intros [|y b] [|z c] A B; try discriminate; auto.
  cbn [word_lt] in *. destruct (Z.eqb_spec x y) as [E1|N1].
  - destruct (Z.eqb_spec y z) as [E2|N2].
    + rewrite (proj2 (Z.eqb_eq x z)) by lia. eauto.
    + rewrite (proj2 (Z.eqb_neq x z)) by lia. rewrite E1. exact B.
  - apply Z.ltb_lt in A. destruct (Z.eqb_spec y z) as [E2|N2].
    + rewrite (proj2 (Z.eqb_neq x z)) by lia. apply Z.ltb_lt. lia.
    + apply Z.ltb_lt in B. rewrite (proj2 (Z.eqb_neq x z)) by lia. apply Z.ltb_lt. lia.
Qed.
Lemma increasing_all : forall l x, increasing (x :: l) = true -> forall y, In y l -> word_lt x y = true.
Proof.
  induction l as [|z l IH]; intros x H y Y; [destruct Y|].
  cbn [increasing] in H. apply andb_prop in H as [H1 H2]. destruct Y as [<-|Y]; auto.
  apply (word_lt_trans _ z); auto.
Qed.
Lemma increasing_tail : forall x l, increasing (x :: l) = true -> increasing l = true.
Proof. intros x [|y l] H; [reflexivity|]. cbn [increasing] in H. apply andb_prop in H as [_ H]. exact H. Qed.
Lemma increasing_nodup : forall l, increasing l = true -> NoDup l.
Proof.
  induction l as [|x l IH]; intros H; constructor.
  - intro X. pose proof (increasing_all _ _ H _ X) as E. rewrite word_lt_irrefl in E. discriminate.
  - apply IH. exact (increasing_tail _ _ H).
Qed.
Lemma wl_nodup : NoDup wordlist. Proof. exact (increasing_nodup _ wl_inc). Qed.
Lemma wl_prefixes : increasing (map (firstn 4) wordlist) = true.
Proof. vm_compute. reflexivity. Qed.
Lemma wl_sizes : forall w, In w wordlist -> 3 <= len w <= 8.
Proof.
  assert (F : forallb (fun w => (3 <=? len w) && (len w <=? 8)) wordlist = true) by (vm_compute; reflexivity).
  intros w W. rewrite forallb_forall in F. apply F in W. apply andb_prop in W as [A B]. apply Z.leb_le in A, B. auto.
Qed.
#[global] Opaque wordlist.

Definition word (k : Z) : list Z := nth (Z.to_nat k) wordlist [].
Definition idx_ok (k : Z) : Prop := 0 <= k < 2048.
Lemma word_in : forall k, idx_ok k -> In (word k) wordlist.
Proof. intros k K. unfold word. apply nth_In. pose proof wl_len as L. unfold len, idx_ok in *. lia. Qed.
Lemma word_len : forall k, idx_ok k -> 1 <= len (word k) <= 8.
Proof. intros k K. apply wl_word. apply word_in; auto. Qed.
Definition no_space (w : list Z) : Prop := Forall (fun c => c <> 32) w.
Lemma word_no_space : forall k, idx_ok k -> no_space (word k).
Proof.
  intros k K. destruct (wl_word _ (word_in _ K)) as [_ L]. unfold letters in L. rewrite forallb_forall in L.
  apply Forall_forall. intros c C. apply L in C. apply andb_prop in C as [C _]. apply Z.leb_le in C. lia.
Qed.

(** ** Writing *)
Lemma join_snoc : forall ws w, ws <> [] -> join_words (ws ++ [w]) = join_words ws ++ [32] ++ w.
Proof.
  induction ws as [|a ws IH]; intros w N; [congruence|].
  destruct ws as [|b ws]; [reflexivity|].
  change (join_words ((a :: b :: ws) ++ [w])) with (a ++ [32] ++ join_words ((b :: ws) ++ [w])).
  rewrite IH by discriminate. change (join_words (a :: b :: ws)) with (a ++ [32] ++ join_words (b :: ws)).
  rewrite <- !app_assoc. reflexivity.
Qed.
Lemma nth_word : forall k, idx_ok k -> nth_error wordlist (Z.to_nat k) = Some (word k).
Proof. intros k K. unfold word. apply nth_error_nth'. pose proof wl_len as L. unfold len, idx_ok in *. lia. Qed.
Lemma bits_val_range : forall l, 0 <= bits_val l < 2 ^ len l.
Proof.
  intro l. unfold bits_val. rewrite <- (len_map _ _ Z.b2z l). apply be_val_bound; [lia|]. apply Forall_forall. intros x X.
  apply in_map_iff in X as (b & <- & _). destruct b; cbn [Z.b2z]; lia.
Qed.
Lemma bits_val_idx : forall l, length l = 11%nat -> idx_ok (bits_val l).
Proof. intros l L. pose proof (bits_val_range l) as R. unfold len in R. rewrite L in R. exact R. Qed.
Lemma words_out_eq : forall gs i bits out pre rest mlen, bytes_ok bits ->
  bits_of bits = pre ++ concat gs ++ rest -> length pre = (11 * i)%nat -> Forall (fun g => length g = 11%nat) gs ->
  mlen = Z.of_nat (i + length gs) -> (i + length gs <= 24)%nat -> len out <= 9 * Z.of_nat i ->
  words_out (length gs) bits (Z.of_nat i) mlen out = Ok (out ++ join_words (map (fun g => word (bits_val g)) gs)).
Proof.
  induction gs as [|g gs IH]; intros i bits out pre rest mlen O E Lp F M I Lo.
  - cbn [words_out length map join_words]. rewrite app_nil_r. reflexivity.
  - cbn [words_out length]. pose proof (Forall_inv F) as Lg. cbv beta in Lg. cbn [concat] in E.
    assert (L8 : (8 * length bits = 11 * i + 11 + length (concat gs) + length rest)%nat).
    { rewrite <- bits_of_len, E, !app_length, Lp, Lg. lia. }
    replace (Z.of_nat i * 11) with (Z.of_nat (11 * i)) by lia.
    rewrite word_index_eq by (auto; lia). rewrite <- Lp, E.
    rewrite skipn_app_len by reflexivity. rewrite <- app_assoc. rewrite firstn_app_len by auto. cbn [bind].
    fold (be_val 2 (map Z.b2z g)). fold (bits_val g). pose proof (bits_val_idx g Lg) as K. rewrite (nth_word _ K).
    pose proof (word_len _ K) as W.
    assert (C : (240 <? len out + len (word (bits_val g)) + 1) = false) by (apply Z.ltb_ge; cbn [length] in I; lia).
    rewrite C. replace (Z.of_nat i + 1) with (Z.of_nat (S i)) by lia. cbn [length] in M, I.
    rewrite (IH (S i) bits _ (pre ++ g) rest).
    + destruct gs as [|g' gs].
      * assert (T : (Z.of_nat i <? mlen - 1) = false) by (apply Z.ltb_ge; cbn [length] in M; lia). rewrite T.
        cbn [map join_words]. rewrite !app_nil_r. reflexivity.
      * assert (T : (Z.of_nat i <? mlen - 1) = true) by (apply Z.ltb_lt; cbn [length] in M; lia). rewrite T.
        cbn [map join_words]. rewrite <- !app_assoc. reflexivity.
    + exact O.
    + rewrite E, <- !app_assoc. reflexivity.
    + rewrite app_length, Lp, Lg. lia.
    + exact (Forall_inv_tail F).
    + lia.
    + lia.
    + rewrite !len_app. destruct (Z.of_nat i <? mlen - 1); [rewrite len_cons|]; rewrite len_nil; lia.
Qed.

(** ** Reading *)
Lemma take_word_app : forall w j r, no_space w -> j + len w <= 9 -> (r = [] \/ exists t, r = 32 :: t) ->
  take_word j (w ++ r) = Some (w, r).
Proof.
  induction w as [|c w IH]; intros j r N L R.
  - cbn [app]. destruct R as [->|[t ->]]; reflexivity.
  - cbn [app take_word]. pose proof (Forall_inv N) as C. cbv beta in C. rewrite (proj2 (Z.eqb_neq c 32) C).
    rewrite len_cons in L. pose proof (len_nonneg _ w). assert (T : (9 <=? j) = false) by (apply Z.leb_gt; lia). rewrite T.
    rewrite IH; auto; [exact (Forall_inv_tail N)|lia].
Qed.
Lemma take_word_sound : forall s j w r, take_word j s = Some (w, r) ->
  s = w ++ r /\ no_space w /\ (r = [] \/ exists t, r = 32 :: t).
Proof.
  induction s as [|c s IH]; intros j w r H; cbn [take_word] in H.
  - injection H as <- <-. split; [reflexivity|]. split; [constructor|auto].
  - destruct (Z.eqb_spec c 32) as [->|N].
    + injection H as <- <-. split; [reflexivity|]. split; [constructor|eauto].
    + destruct (9 <=? j); [discriminate|]. destruct (take_word (j + 1) s) as [[w' r']|] eqn:E; [|discriminate].
      injection H as <- <-. apply IH in E as (-> & N' & R). split; [reflexivity|]. split; [constructor; auto|auto].
Qed.
Lemma find_word_some : forall l k w i, find_word k l w = Some i -> k <= i < k + len l /\ nth (Z.to_nat (i - k)) l [] = w.
Proof.
  induction l as [|x l IH]; intros k w i H; cbn [find_word] in H; [discriminate|].
  rewrite len_cons. pose proof (len_nonneg _ l).
  destruct (list_eq_dec Z.eq_dec w x) as [->|N].
  - injection H as <-. split; [lia|]. rewrite Z.sub_diag. reflexivity.
  - apply IH in H as [R E]. split; [lia|]. replace (Z.to_nat (i - k)) with (S (Z.to_nat (i - (k + 1)))) by lia. exact E.
Qed.
Lemma find_word_nth : forall l k i, NoDup l -> 0 <= i < len l -> find_word k l (nth (Z.to_nat i) l []) = Some (k + i).
Proof.
  induction l as [|x l IH]; intros k i N I; [unfold len in I; cbn in I; lia|].
  inversion N as [|? ? N1 N2]; subst. rewrite len_cons in I. cbn [find_word].
  destruct (Z.eq_dec i 0) as [->|D].
  - cbn [Z.to_nat nth]. destruct (list_eq_dec Z.eq_dec x x); [f_equal; lia|congruence].
  - replace (Z.to_nat i) with (S (Z.to_nat (i - 1))) by lia. cbn [nth].
    destruct (list_eq_dec Z.eq_dec (nth (Z.to_nat (i - 1)) l []) x) as [E|_].
    + exfalso. apply N1. rewrite <- E. apply nth_In. unfold len in I. lia.
    + rewrite IH by (auto; lia). f_equal. lia.
Qed.
Lemma find_word_word : forall k, idx_ok k -> find_word 0 wordlist (word k) = Some k.
Proof. intros k K. unfold word. rewrite find_word_nth; [reflexivity|apply wl_nodup|rewrite wl_len; exact K]. Qed.
Lemma find_word_sound : forall w k, find_word 0 wordlist w = Some k -> idx_ok k /\ w = word k.
Proof.
  intros w k H. apply find_word_some in H as [R E]. rewrite wl_len in R. rewrite Z.sub_0_r in E. split; [exact R|].
  symmetry. exact E.
Qed.

Lemma spaces_app : forall a b, spaces (a ++ b) = spaces a + spaces b.
Proof. induction a; intros; [reflexivity|]. cbn [app spaces]. rewrite IHa. lia. Qed.
Lemma spaces_none : forall w, no_space w -> spaces w = 0.
Proof. induction 1 as [|c w C _ IH]; [reflexivity|]. cbn [spaces]. rewrite (proj2 (Z.eqb_neq c 32) C), IH. reflexivity. Qed.
Lemma spaces_nonneg : forall s, 0 <= spaces s.
Proof. induction s; cbn [spaces]; [lia|]. destruct (a =? 32); lia. Qed.
Lemma spaces_join : forall ws, Forall no_space ws -> ws <> [] -> spaces (join_words ws) = len ws - 1.
Proof.
  induction ws as [|w ws IH]; intros F N; [congruence|].
  destruct ws as [|v ws].
  - cbn [join_words]. rewrite spaces_none by (exact (Forall_inv F)). reflexivity.
  - change (join_words (w :: v :: ws)) with (w ++ [32] ++ join_words (v :: ws)). rewrite !spaces_app, IH by (try discriminate; exact (Forall_inv_tail F)).
    rewrite (spaces_none w) by (exact (Forall_inv F)). rewrite !len_cons. change (spaces [32]) with 1. lia.
Qed.

Definition spell (ks : list Z) : list Z := join_words (map word ks).
Definition ks_bits (ks : list Z) : list bool := concat (map (bits_n 11) ks).
Lemma ks_bits_len : forall ks, length (ks_bits ks) = (11 * length ks)%nat.
Proof. induction ks; [reflexivity|]. unfold ks_bits in *. cbn [map concat]. rewrite app_length, IHks, bits_n_len. cbn [length]. lia. Qed.
Lemma no_spaces_map : forall ks, Forall idx_ok ks -> Forall no_space (map word ks).
Proof. intros ks F. apply Forall_forall. intros w W. apply in_map_iff in W as (k & <- & K). apply word_no_space. rewrite Forall_forall in F. auto. Qed.

(** What a successful reading says. *)
Definition read_ok (P : list bool) (m : nat) (bits' : list Z) (bi' : Z) (ks : list Z) : Prop :=
  bytes_ok bits' /\ bits_of bits' = P ++ ks_bits ks ++ repeat false (m - 11 * length ks) /\
  bi' = len P + 11 * len ks.
Lemma words_in_sound : forall fuel s bits P m, (length s <= fuel)%nat -> bytes_ok bits ->
  bits_of bits = P ++ repeat false m -> s <> [] -> 11 * (spaces s + 1) <= Z.of_nat m ->
  words_in fuel s bits (len P) = Ok None \/
  exists bits' bi' ks, words_in fuel s bits (len P) = Ok (Some (bits', bi')) /\ ks <> [] /\ Forall idx_ok ks /\
    read_ok P m bits' bi' ks /\ (s = spell ks \/ s = spell ks ++ [32]).
Proof.
  induction fuel; intros s bits P m Lf O E NE M.
  - destruct s; [congruence|cbn in Lf; lia].
  - destruct s as [|c0 s0] eqn:Es0; [congruence|]. rewrite <- Es0 in *. clear NE.
    assert (U : words_in (S fuel) s bits (len P) = match take_word 0 s with
      | None => Ok None
      | Some (w, r) => match find_word 0 wordlist w with
          | None => Ok None
          | Some k => let! r' := put_bits 11 k bits (len P) in
              words_in fuel (match r with [] => [] | _ :: t => t end) (fst r') (snd r')
          end end) by (rewrite Es0; reflexivity).
    rewrite U. clear U. destruct (take_word 0 s) as [[w r]|] eqn:T; [|auto].
    apply take_word_sound in T as (Ew & Nw & R).
    destruct (find_word 0 wordlist w) as [k|] eqn:Fw; [|auto].
    apply find_word_sound in Fw as [K Wk].
    pose proof (spaces_nonneg s) as S0.
    assert (Em : m = (11 + (m - 11))%nat) by lia.
    destruct (put_bits_eq 11 k bits P (m - 11)) as (b' & E1 & O' & L' & E2); [unfold idx_ok in K; lia|auto|rewrite E; rewrite Em at 1; reflexivity|].
    rewrite E1. cbn [bind fst snd].
    assert (EP : len P + Z.of_nat 11 = len (P ++ bits_n 11 k)) by (rewrite len_app; unfold len; rewrite bits_n_len; lia).
    rewrite EP. rewrite app_assoc in E2.
    assert (one : read_ok P m b' (len P + 11 * len [k]) [k]).
    { split; [auto|]. split; [|reflexivity]. rewrite E2, <- app_assoc. unfold ks_bits. cbn [map concat length]. rewrite app_nil_r. reflexivity. }
    destruct R as [->|[t ->]].
    + right. destruct fuel; cbn [words_in]; exists b', (len (P ++ bits_n 11 k)), [k];
      (split; [reflexivity|split; [discriminate|split; [auto|split; [|left]]]]);
      try (rewrite <- EP; exact one); rewrite Ew, app_nil_r; rewrite Wk; reflexivity.
    + destruct t as [|c t].
      * right. destruct fuel; cbn [words_in]; exists b', (len (P ++ bits_n 11 k)), [k];
        (split; [reflexivity|split; [discriminate|split; [auto|split; [|right]]]]);
        try (rewrite <- EP; exact one); rewrite Ew, Wk; reflexivity.
      * assert (SP : spaces s = 1 + spaces (c :: t)).
        { rewrite Ew, spaces_app, (spaces_none w Nw). cbn [spaces]. rewrite Z.eqb_refl. lia. }
        assert (LS : length s = (length w + S (S (length t)))%nat) by (rewrite Ew, app_length; reflexivity).
        destruct (IHfuel (c :: t) b' (P ++ bits_n 11 k) (m - 11)%nat) as [H|(b2 & bi2 & ks & H1 & H2 & H3 & H4 & H5)];
          [cbn [length]; lia|auto|auto|discriminate|lia| |].
        { left. exact H. }
        right. exists b2, bi2, (k :: ks). split; [exact H1|]. split; [discriminate|]. split; [constructor; auto|].
        destruct H4 as (Ob & Eb & Bb). split.
        { split; [auto|]. split.
          - rewrite Eb, <- !app_assoc. unfold ks_bits. cbn [map concat length]. rewrite <- !app_assoc. do 4 f_equal. lia.
          - rewrite Bb, len_app, len_cons. unfold len. rewrite bits_n_len. lia. }
        assert (J : spell (k :: ks) = word k ++ [32] ++ spell ks) by (destruct ks; [congruence|reflexivity]).
        rewrite J, Ew, Wk. destruct H5 as [->| ->]; [left|right]; rewrite <- ?app_assoc; reflexivity.
Qed.
Lemma words_in_spell : forall fuel ks bits P m, (length (spell ks) <= fuel)%nat -> bytes_ok bits ->
  bits_of bits = P ++ repeat false m -> ks <> [] -> Forall idx_ok ks -> 11 * len ks <= Z.of_nat m ->
  exists bits' bi', words_in fuel (spell ks) bits (len P) = Ok (Some (bits', bi')) /\ read_ok P m bits' bi' ks.
Proof.
  induction fuel; intros ks bits P m Lf O E NE F M.
  - destruct ks as [|k ks]; [congruence|]. exfalso. pose proof (word_len k (Forall_inv F)) as W.
    assert (Q : exists r, spell (k :: ks) = word k ++ r).
    { destruct ks as [|k2 ks]; [exists []; symmetry; apply app_nil_r|]. exists ([32] ++ spell (k2 :: ks)). reflexivity. }
    destruct Q as [r Q]. rewrite Q, app_length in Lf. unfold len in W. lia.
  - destruct ks as [|k ks]; [congruence|]. pose proof (Forall_inv F) as K. pose proof (word_len k K) as W.
    pose proof (word_no_space k K) as NS. rewrite len_cons in M. pose proof (len_nonneg _ ks).
    assert (Em : m = (11 + (m - 11))%nat) by lia.
    destruct (put_bits_eq 11 k bits P (m - 11)) as (b' & E1 & O' & L' & E2); [unfold idx_ok in K; lia|auto|rewrite E; rewrite Em at 1; reflexivity|].
    assert (EP : len P + Z.of_nat 11 = len (P ++ bits_n 11 k)) by (rewrite len_app; unfold len; rewrite bits_n_len; lia).
    rewrite EP in E1. rewrite app_assoc in E2.
    assert (step : forall r, (r = [] \/ exists t, r = 32 :: t) -> words_in (S fuel) (word k ++ r) bits (len P) =
       words_in fuel (match r with [] => [] | _ :: t => t end) b' (len (P ++ bits_n 11 k))).
    { intros r R. assert (N : exists c s, word k ++ r = c :: s).
      { destruct (word k); [unfold len in W; cbn in W; lia|]. eexists _, _. reflexivity. }
      destruct N as (c & s & N). rewrite N. cbn [words_in]. rewrite <- N.
      rewrite take_word_app by (auto; lia). rewrite find_word_word by auto. rewrite E1. reflexivity. }
    destruct ks as [|k2 ks].
    + change (spell [k]) with (word k). replace (word k) with (word k ++ []) by apply app_nil_r. rewrite step by auto.
      exists b', (len (P ++ bits_n 11 k)). split; [destruct fuel; reflexivity|].
      split; [auto|]. split; [|rewrite <- EP; reflexivity].
      rewrite E2, <- app_assoc. unfold ks_bits. cbn [map concat length]. rewrite app_nil_r. reflexivity.
    + change (spell (k :: k2 :: ks)) with (word k ++ 32 :: spell (k2 :: ks)) in *. rewrite step by eauto.
      rewrite app_length in Lf. cbn [length] in Lf.
      destruct (IHfuel (k2 :: ks) b' (P ++ bits_n 11 k) (m - 11)%nat) as (b2 & bi2 & H1 & Ob & Eb & Bb);
        [lia|auto|auto|discriminate|exact (Forall_inv_tail F)|lia|].
      exists b2, bi2. split; [exact H1|]. split; [auto|]. split.
      * rewrite Eb, <- !app_assoc. change (ks_bits (k :: k2 :: ks)) with (bits_n 11 k ++ ks_bits (k2 :: ks)). rewrite <- !app_assoc. do 3 f_equal. f_equal. cbn [length]. lia.
      * rewrite Bb, len_app, (len_cons _ k). unfold len. rewrite bits_n_len. lia.
Qed.
