(** Lemmas about random_buffer, random_uniform and random_permute. *)
From Coq Require Import Lia Permutation.
From Verif Require Import Base.Bytes Base.BytesFacts Spec.Random Model.Rand.
Open Scope Z_scope.

(** * random_uniform *)
Lemma max_share : forall n, 1 <= n -> 0xFFFFFFFF - 0xFFFFFFFF mod n = n * share n.
Proof. intros n H. unfold share. change (2 ^ 32 - 1) with 0xFFFFFFFF. pose proof (Z.div_mod 0xFFFFFFFF n). lia. Qed.
Lemma share_pos : forall n, 1 <= n < 2 ^ 32 -> 1 <= share n.
Proof. intros n H. unfold share. apply Z.div_le_lower_bound; lia. Qed.
Lemma uniform_eq : forall n ws, 1 <= n < 2 ^ 32 -> random_uniform n ws =
  Ok (match below (n * share n) ws with None => None | Some (x, t) => Some (x / share n, t) end).
Proof.
  intros n ws H. unfold random_uniform. rewrite (proj2 (Z.eqb_neq n 0)) by lia. cbv zeta. rewrite max_share by lia.
  destruct (below (n * share n) ws) as [[x t]|]; [|reflexivity].
  rewrite (Z.mul_comm n), Z.div_mul by lia. pose proof (share_pos n H). rewrite (proj2 (Z.eqb_neq (share n) 0)) by lia. reflexivity.
Qed.
Lemma uniform_one : forall n w ws r rest, 1 <= n < 2 ^ 32 -> 0 <= r < n -> 0 <= w -> w < n * share n ->
  (random_uniform n (w :: ws) = Ok (Some (r, rest)) <-> r * share n <= w < (r + 1) * share n /\ rest = ws).
Proof.
  intros n w ws r rest H Hr Hw L. rewrite uniform_eq by auto. cbn [below]. rewrite (proj2 (Z.leb_gt _ _) L).
  pose proof (share_pos n H) as S1. split.
  - intros E. inversion E. subst. split; [|reflexivity].
    pose proof (Z.div_mod w (share n) ltac:(lia)). pose proof (Z.mod_pos_bound w (share n) ltac:(lia)). nia.
  - intros [B ->]. do 3 f_equal. symmetry. apply (Z.div_unique w (share n) r (w - share n * r)); lia.
Qed.
Lemma uniform_reject : forall n w ws, 1 <= n < 2 ^ 32 -> n * share n <= w -> random_uniform n (w :: ws) = random_uniform n ws.
Proof. intros n w ws H L. rewrite !uniform_eq by auto. cbn [below]. rewrite (proj2 (Z.leb_le _ _) L). reflexivity. Qed.
Lemma uniform_exact : forall n w r, 1 <= n < 2 ^ 32 -> 0 <= r < n -> word32 w ->
  (random_uniform n [w] = Ok (Some (r, [])) <-> r * share n <= w < (r + 1) * share n).
Proof.
  intros n w r H Hr [W0 W1]. pose proof (share_pos n H) as S1. destruct (Z_lt_le_dec w (n * share n)) as [L|L].
  - rewrite uniform_one by auto. tauto.
  - rewrite uniform_reject by auto. split; [unfold random_uniform; rewrite (proj2 (Z.eqb_neq n 0)) by lia; discriminate|].
    intros B. exfalso. nia.
Qed.
Lemma below_some : forall m ws x t, below m ws = Some (x, t) -> x < m /\ (length t < length ws)%nat /\ In x ws /\ incl t ws.
Proof.
  intros m ws. induction ws as [|w ws IH]; intros x t E; [discriminate|]. cbn [below] in E.
  destruct (Z.leb_spec m w).
  - apply IH in E. destruct E as (A & B & C & D). split; [exact A|]. split; [cbn; lia|]. split; [right; exact C|]. intros y Y. right. apply D, Y.
  - inversion E. subst. split; [auto|]. split; [cbn; lia|]. split; [left; reflexivity|]. intros y Y. right. exact Y.
Qed.
Lemma uniform_some : forall n ws r rest, 1 <= n < 2 ^ 32 -> Forall word32 ws -> random_uniform n ws = Ok (Some (r, rest)) ->
  0 <= r < n /\ (length rest < length ws)%nat /\ Forall word32 rest.
Proof.
  intros n ws r rest H F E. rewrite uniform_eq in E by auto. destruct (below (n * share n) ws) as [[x t]|] eqn:B; [|discriminate].
  apply below_some in B. destruct B as (A & B & C & D). inversion E. subst. clear E. rewrite Forall_forall in F. pose proof (F x C) as [X0 X1].
  pose proof (share_pos n H) as S1. split; [|split; [exact B|apply Forall_forall; intros y Y; apply F, D, Y]].
  split; [apply Z.div_pos; lia|]. apply Z.div_lt_upper_bound; lia.
Qed.

(** * Exchanging two characters *)
Lemma set_nth_length : forall l i v, length (set_nth l i v) = length l.
Proof. induction l; destruct i; cbn; intros; auto. Qed.
Lemma set_nth_nth : forall l i v k, (i < length l)%nat -> nth k (set_nth l i v) 0 = if Nat.eq_dec k i then v else nth k l 0.
Proof.
  induction l; intros i v k H; [cbn in H; lia|]. destruct i; cbn [set_nth].
  - destruct k; cbn; reflexivity.
  - destruct k; cbn [nth]; [reflexivity|]. cbn in H. rewrite IHl by lia. destruct (Nat.eq_dec k i), (Nat.eq_dec (S k) (S i)); auto; lia.
Qed.
Lemma aset_ok : forall l i v, 0 <= i < len l -> aset l i v = Ok (set_nth l (Z.to_nat i) v).
Proof. intros l i v H. unfold aset. replace ((0 <=? i) && (i <? len l)) with true by (symmetry; apply andb_true_intro; lia). reflexivity. Qed.
Definition swap (l : list Z) (j i : nat) : list Z := set_nth (set_nth l j (nth i l 0)) i (nth j l 0).
Lemma swap_length : forall l j i, length (swap l j i) = length l.
Proof. intros. unfold swap. rewrite !set_nth_length. reflexivity. Qed.
Lemma swap_nth : forall l j i k, (j < length l)%nat -> (i < length l)%nat ->
  nth k (swap l j i) 0 = nth (if Nat.eq_dec k i then j else if Nat.eq_dec k j then i else k) l 0.
Proof.
  intros l j i k J I. unfold swap. rewrite set_nth_nth by (rewrite set_nth_length; lia). destruct (Nat.eq_dec k i); [reflexivity|].
  rewrite set_nth_nth by lia. destruct (Nat.eq_dec k j); reflexivity.
Qed.
Lemma swap_perm : forall l j i, (j < length l)%nat -> (i < length l)%nat -> Permutation l (swap l j i).
Proof.
  intros l j i J I. apply (Permutation_nth l (swap l j i) 0). split; [apply swap_length|].
  exists (fun k => if Nat.eq_dec k i then j else if Nat.eq_dec k j then i else k). split; [|split].
  - intros k K. destruct (Nat.eq_dec k i); [lia|]. destruct (Nat.eq_dec k j); lia.
  - intros x y X Y. destruct (Nat.eq_dec x i), (Nat.eq_dec y i), (Nat.eq_dec x j), (Nat.eq_dec y j); lia.
  - intros k K. rewrite swap_nth by auto. reflexivity.
Qed.
Lemma permute_step : forall i l ws, (S i < length l)%nat -> len l < 2 ^ 31 -> Forall word32 ws ->
  permute_loop (S i) l ws = match random_uniform (Z.of_nat (S i) + 1) ws with
    | Ok (Some (j, t)) => permute_loop i (swap l (Z.to_nat j) (S i)) t | Ok None => Ok None | UB => UB end.
Proof.
  intros i l ws H L F. cbn [permute_loop].
  assert (HN : 1 <= Z.of_nat (S i) + 1 < 2 ^ 32) by (unfold len in L; lia).
  destruct (random_uniform (Z.of_nat (S i) + 1) ws) as [[[j t]|]|] eqn:E; [|reflexivity|reflexivity].
  apply uniform_some in E; [|auto|auto]. destruct E as (J & _). cbv beta iota delta [bind]. unfold len in L.
  rewrite (aget_ok l j) by (unfold len; lia). rewrite (aget_ok l (Z.of_nat (S i))) by (unfold len; lia).
  rewrite (aset_ok l j) by (unfold len; lia). rewrite aset_ok by (unfold len; rewrite set_nth_length; lia).
  rewrite Nat2Z.id. reflexivity.
Qed.

(** * random_permute *)
Lemma permute_some : forall i l ws p rest, (i < length l \/ i = 0)%nat -> len l < 2 ^ 31 -> Forall word32 ws ->
  permute_loop i l ws = Ok (Some (p, rest)) ->
  Permutation l p /\ (length rest + i <= length ws)%nat /\ (forall k, (i < k)%nat -> nth k p 0 = nth k l 0).
Proof.
  induction i as [|i IH]; intros l ws p rest I L F E.
  - inversion E. subst. split; [apply Permutation_refl|]. split; [lia|]. auto.
  - assert (I' : (S i < length l)%nat) by lia. rewrite permute_step in E by auto.
    destruct (random_uniform (Z.of_nat (S i) + 1) ws) as [[[j t]|]|] eqn:U; [|discriminate|discriminate].
    apply uniform_some in U; [|unfold len in L; lia|auto]. destruct U as (J & T & FT).
    assert (JL : (Z.to_nat j < length l)%nat) by lia.
    apply IH in E; [|rewrite swap_length; lia|unfold len; rewrite swap_length; exact L|exact FT]. destruct E as (P & R & K).
    split; [eapply perm_trans; [apply (swap_perm l (Z.to_nat j) (S i)); lia|exact P]|]. split; [lia|].
    intros k Hk. rewrite K by lia. rewrite swap_nth by lia. destruct (Nat.eq_dec k (S i)); [lia|]. destruct (Nat.eq_dec k (Z.to_nat j)); [lia|reflexivity].
Qed.
Lemma permute_no_ub : forall i l ws, (i < length l \/ i = 0)%nat -> len l < 2 ^ 31 -> Forall word32 ws -> permute_loop i l ws <> UB.
Proof.
  induction i as [|i IH]; intros l ws I L F; [discriminate|]. assert (I' : (S i < length l)%nat) by lia. rewrite permute_step by auto.
  assert (HN : 1 <= Z.of_nat (S i) + 1 < 2 ^ 32) by (unfold len in L; lia).
  destruct (random_uniform (Z.of_nat (S i) + 1) ws) as [[[j t]|]|] eqn:U; [|discriminate|].
  - apply uniform_some in U; [|auto|auto]. apply IH; [rewrite swap_length; lia|unfold len; rewrite swap_length; exact L|tauto].
  - rewrite uniform_eq in U by auto. discriminate.
Qed.
Lemma same_tail_perm : forall (l p : list Z), Permutation l p -> (forall k, (0 < k)%nat -> nth k p 0 = nth k l 0) -> p = l.
Proof.
  intros l p P K. pose proof (Permutation_length P) as PL. destruct l as [|a l], p as [|b p]; try reflexivity; try discriminate PL.
  assert (E : p = l).
  { apply (nth_ext p l 0 0); [cbn in PL; lia|]. intros n _. apply (K (S n)). lia. }
  subst. apply Permutation_sym in P. apply (Permutation_app_inv_r l [b] [a]) in P. apply Permutation_length_1 in P. subst. reflexivity.
Qed.
Lemma permute_exact : forall i l p, (i < length l)%nat -> len l < 2 ^ 31 -> NoDup l -> Permutation l p ->
  (forall k, (i < k)%nat -> nth k p 0 = nth k l 0) ->
  exists js, picks_ok i js /\ forall ws, Forall word32 ws -> length ws = i ->
    (permute_loop i l ws = Ok (Some (p, [])) <-> words_pick i js ws).
Proof.
  induction i as [|i IH]; intros l p I L ND P K.
  - exists []. split; [exact Logic.I|]. intros ws F W. destruct ws; [|discriminate]. pose proof (same_tail_perm l p P K). subst.
    split; [intros _; exact Logic.I|reflexivity].
  - pose proof (Permutation_length P) as PL. pose proof (Permutation_NoDup P ND) as NDp.
    assert (IN : In (nth (S i) p 0) l) by (apply (Permutation_in _ (Permutation_sym P)), nth_In; lia).
    destruct (In_nth _ _ 0 IN) as (j & JL & EJ).
    assert (J : (j <= S i)%nat).
    { destruct (le_gt_dec j (S i)); [lia|]. exfalso. rewrite <- K in EJ by lia.
      apply (proj1 (NoDup_nth p 0) NDp) in EJ; [lia|lia|lia]. }
    assert (HN : 1 <= Z.of_nat (S i) + 1 < 2 ^ 32) by (unfold len in L; lia).
    destruct (IH (swap l j (S i)) p) as (js & OK & EX).
    + rewrite swap_length. lia.
    + unfold len. rewrite swap_length. exact L.
    + apply (Permutation_NoDup (swap_perm l j (S i) JL I) ND).
    + eapply perm_trans; [apply Permutation_sym, (swap_perm l j (S i) JL I)|exact P].
    + intros k Hk. rewrite swap_nth by lia. destruct (Nat.eq_dec k (S i)) as [->|]; [symmetry; exact EJ|].
      destruct (Nat.eq_dec k j); [lia|]. apply K. lia.
    + exists (Z.of_nat j :: js). split; [cbn [picks_ok]; split; [lia|exact OK]|].
      intros ws F W. destruct ws as [|w ws]; [discriminate|]. cbn [words_pick]. inversion F as [|? ? F1 F2]. subst.
      rewrite permute_step by auto. destruct F1 as [F0 F1]. cbn [length] in W.
      destruct (Z_lt_le_dec w ((Z.of_nat (S i) + 1) * share (Z.of_nat (S i) + 1))) as [A|A].
      * destruct (random_uniform (Z.of_nat (S i) + 1) (w :: ws)) as [[[j' t]|]|] eqn:U.
        -- pose proof U as U'. apply uniform_some in U; [|auto|auto]. destruct U as (J' & _).
           apply uniform_one in U'; auto. destruct U' as [B ->].
           assert (JL' : (Z.to_nat j' < length l)%nat) by lia.
           destruct (Z.eq_dec j' (Z.of_nat j)) as [E|E].
           ++ rewrite E, Nat2Z.id. rewrite EX by (auto; lia). rewrite E in B. tauto.
           ++ split; [|intros [B' _]; exfalso; pose proof (share_pos _ HN); nia].
              intros X. exfalso. apply permute_some in X; [|rewrite swap_length; lia|unfold len; rewrite swap_length; exact L|auto].
              destruct X as (_ & _ & X). specialize (X (S i) ltac:(lia)). rewrite swap_nth in X by lia.
              destruct (Nat.eq_dec (S i) (S i)); [|lia]. rewrite <- EJ in X. apply (proj1 (NoDup_nth l 0) ND) in X; lia.
        -- rewrite uniform_eq in U by auto. cbn [below] in U. rewrite (proj2 (Z.leb_gt _ _) A) in U. discriminate.
        -- rewrite uniform_eq in U by auto. discriminate.
      * rewrite uniform_reject by auto. split.
        -- intros X. exfalso. destruct (random_uniform (Z.of_nat (S i) + 1) ws) as [[[j' t]|]|] eqn:U; [|discriminate|discriminate].
           apply uniform_some in U; [|auto|auto]. destruct U as (J' & T & FT).
           apply permute_some in X; [|rewrite swap_length; lia|unfold len; rewrite swap_length; exact L|auto]. destruct X as (_ & X & _). cbn in X. lia.
        -- intros [B _]. exfalso. pose proof (share_pos _ HN). nia.
Qed.
