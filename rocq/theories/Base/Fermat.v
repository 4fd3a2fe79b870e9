(** Fermat's little theorem and Pocklington's criterion. *)
From Coq Require Import ZArith Znumtheory Zpow_facts List Permutation Lia.
Import ListNotations.
Open Scope Z_scope.

Definition zprod (l : list Z) : Z := fold_right Z.mul 1 l.
Lemma zprod_perm : forall l l', Permutation l l' -> zprod l = zprod l'.
Proof. induction 1; cbn [zprod fold_right] in *; unfold zprod in *; cbn [fold_right]; try congruence; ring. Qed.
Definition residues (p : Z) : list Z := map Z.of_nat (seq 1 (Z.to_nat (p - 1))).
Lemma residues_in : forall p x, In x (residues p) <-> 1 <= x < p.
Proof.
  intros p x. unfold residues. rewrite in_map_iff. split.
  - intros (n & <- & H). apply in_seq in H. lia.
  - intros H. exists (Z.to_nat x). split; [lia|]. apply in_seq. lia.
Qed.
Lemma residues_nodup : forall p, NoDup (residues p).
Proof. intros. apply FinFun.Injective_map_NoDup; [intros a b; lia|apply seq_NoDup]. Qed.
Lemma zprod_prime : forall p l, prime p -> (forall x, In x l -> ~ (p | x)) -> ~ (p | zprod l).
Proof.
  intros p l Hp. induction l as [|x l IH]; intros H; cbn [zprod fold_right].
  - intros D. destruct Hp as [Hp _]. apply Z.divide_1_r_nonneg in D; lia.
  - intros D. apply prime_mult in D as [D|D]; auto; [apply (H x); [left|]; auto|apply IH; auto; intros y Hy; apply H; right; auto].
Qed.
Lemma zprod_mul : forall p a l, 0 < p -> zprod (map (fun x => (a * x) mod p) l) mod p = (a ^ Z.of_nat (length l) * zprod l) mod p.
Proof.
  intros p a l Hp. induction l as [|x l IH]; [reflexivity|]. cbn [map zprod fold_right length]. fold (zprod l). fold (zprod (map (fun x => (a * x) mod p) l)).
  rewrite Z.mul_mod_idemp_l by lia. rewrite <- Z.mul_mod_idemp_r, IH, Z.mul_mod_idemp_r by lia. rewrite Nat2Z.inj_succ, Z.pow_succ_r by lia. f_equal. ring.
Qed.
Lemma fermat : forall p a, prime p -> ~ (p | a) -> (p | a ^ (p - 1) - 1).
Proof.
  intros p a Hp Ha. assert (P1 : 1 < p) by (destruct Hp; auto).
  set (l := residues p). set (l' := map (fun x => (a * x) mod p) l).
  assert (ND : NoDup l').
  { assert (NI : forall k, (forall x, In x k -> In x l) -> NoDup k -> NoDup (map (fun x => (a * x) mod p) k)).
    { induction k as [|x k IH]; intros I N; [constructor|]. inversion N as [|? ? N1 N2]; subst. cbn [map]. constructor; [|apply IH; auto; intros; apply I; right; auto].
      intros Q. apply in_map_iff in Q as (y & E & Hy). apply N1. replace x with y; auto.
      assert (Rx : 1 <= x < p) by (apply residues_in, I; left; auto). assert (Ry : 1 <= y < p) by (apply residues_in, I; right; auto).
      assert (D : (p | a * (y - x))). { apply Z.mod_divide; [lia|]. rewrite Z.mul_sub_distr_l, Zminus_mod, E, Z.sub_diag. apply Z.mod_0_l. lia. }
      apply prime_mult in D as [D|D]; auto; [contradiction|]. destruct D as [z D]. assert (z = 0) by nia. subst z. lia. }
    apply NI; [auto|apply residues_nodup]. }
  assert (IN : incl l' l).
  { intros y Hy. apply in_map_iff in Hy as (x & <- & Hx). apply residues_in. apply residues_in in Hx. pose proof (Z.mod_pos_bound (a * x) p ltac:(lia)).
    destruct (Z.eq_dec ((a * x) mod p) 0) as [Q|Q]; [|lia]. exfalso. apply Z.mod_divide in Q; [|lia]. apply prime_mult in Q as [Q|Q]; auto. apply Z.divide_pos_le in Q; lia. }
  assert (PM : Permutation l' l) by (apply NoDup_Permutation_bis; auto; unfold l'; rewrite map_length; lia).
  pose proof (zprod_mul p a l ltac:(lia)) as E. fold l' in E. rewrite (zprod_perm _ _ PM) in E.
  assert (LL : Z.of_nat (length l) = p - 1) by (unfold l, residues; rewrite map_length, seq_length; lia). rewrite LL in E.
  assert (D : (p | zprod l * (a ^ (p - 1) - 1))).
  { apply Z.mod_divide; [lia|]. replace (zprod l * (a ^ (p - 1) - 1)) with (a ^ (p - 1) * zprod l - zprod l) by ring. rewrite Zminus_mod, <- E, Z.sub_diag. apply Z.mod_0_l. lia. }
  apply prime_mult in D as [D|D]; auto. exfalso. revert D. apply zprod_prime; auto. intros x Hx D. apply residues_in in Hx. apply Z.divide_pos_le in D; lia.
Qed.

(** Every number above one has a prime divisor whose square is not larger, unless it is prime. *)
Lemma prime_divisor : forall n, 1 < n -> exists r, prime r /\ (r | n).
Proof.
  assert (G : forall n, 0 <= n -> 1 < n -> exists r, prime r /\ (r | n)).
  { apply (Z_lt_induction (fun n => 1 < n -> exists r, prime r /\ (r | n))). intros x IH H.
    destruct (prime_dec x) as [P|P]; [exists x; split; [auto|apply Z.divide_refl]|].
    destruct (not_prime_divide x H P) as (d & Hd & D). destruct (IH d ltac:(lia) ltac:(lia)) as (r & R1 & R2). exists r. split; [auto|apply Z.divide_trans with d; auto]. }
  intros n H. apply G; lia.
Qed.
Lemma small_divisor : forall n, 1 < n -> ~ prime n -> exists r, prime r /\ (r | n) /\ r * r <= n.
Proof.
  intros n H NP. destruct (not_prime_divide n H NP) as (d & Hd & [e E]).
  assert (e1 : 1 < e) by nia.
  destruct (Z.le_ge_cases d e) as [Q|Q].
  - destruct (prime_divisor d ltac:(lia)) as (r & R1 & R2). exists r. split; auto. split; [apply Z.divide_trans with d; [auto|exists e; auto]|].
    assert (R0 : 1 < r) by (destruct R1; auto). apply Z.divide_pos_le in R2; [|lia]. nia.
  - destruct (prime_divisor e e1) as (r & R1 & R2). exists r. split; auto. split; [apply Z.divide_trans with e; [auto|exists d; lia]|].
    assert (R0 : 1 < r) by (destruct R1; auto). apply Z.divide_pos_le in R2; [|lia]. nia.
Qed.

Lemma pow_divide : forall r b n, 0 <= n -> (r | b - 1) -> (r | b ^ n - 1).
Proof.
  intros r b n Hn D. revert n Hn. apply natlike_ind; [exists 0; reflexivity|]. intros n Hn IH. rewrite Z.pow_succ_r by auto.
  replace (b * b ^ n - 1) with (b * (b ^ n - 1) + (b - 1)) by ring. apply Z.divide_add_r; [apply Z.divide_mul_r|]; auto.
Qed.
(** One prime factor [q] of [n]-1. *)
Lemma pock_step : forall n q k a u, 1 < n -> prime q -> n - 1 = q * k -> 0 <= k -> (n | a ^ (n - 1) - 1) -> (n | u * (a ^ k - 1) - 1) ->
  forall r, prime r -> (r | n) -> (q | r - 1).
Proof.
  intros n q k a u Hn Hq E Hk D1 D2 r Hr Rn.
  assert (q1 : 1 < q) by (destruct Hq; auto). assert (r1 : 1 < r) by (destruct Hr; auto).
  destruct (Zdivide_dec q (r - 1)) as [Y|N]; auto. exfalso.
  assert (RP : rel_prime q (r - 1)) by (apply prime_rel_prime; auto).
  assert (k0 : 0 < k) by nia.
  assert (B1 : (r | (a ^ k) ^ q - 1)) by (rewrite <- Z.pow_mul_r, Z.mul_comm, <- E by lia; apply Z.divide_trans with n; auto).
  assert (NB : ~ (r | a ^ k)).
  { intros Q. assert (QQ : (r | (a ^ k) ^ q)) by (replace q with (Z.succ (q - 1)) by lia; rewrite Z.pow_succ_r by lia; apply Z.divide_mul_l; auto).
    assert (X : (r | 1)). { replace 1 with ((a ^ k) ^ q - ((a ^ k) ^ q - 1)) by ring. apply Z.divide_sub_r; auto. } apply Z.divide_1_r_nonneg in X; lia. }
  pose proof (fermat r (a ^ k) Hr NB) as B2. set (b := a ^ k) in *.
  assert (B : (r | b - 1)).
  { apply rel_prime_bezout in RP. destruct RP as [x y EB].
    (* x * q + y * (r-1) = 1, with one coefficient positive *)
    assert (C : forall s t X Y, 0 <= X -> 0 <= Y -> X * s = Y * t + 1 -> 0 <= s -> 0 <= t -> (r | b ^ s - 1) -> (r | b ^ t - 1) -> (r | b - 1)).
    { intros s t X Y HX HY EE Hs Ht F1 F2.
      assert (G1 : (r | b ^ (Y * t + 1) - 1)) by (rewrite <- EE, Z.mul_comm, Z.pow_mul_r by auto; apply pow_divide; auto).
      assert (G2 : (r | b ^ (Y * t) - 1)) by (rewrite Z.mul_comm, Z.pow_mul_r by auto; apply pow_divide; auto).
      rewrite Z.pow_add_r, Z.pow_1_r in G1 by (try apply Z.mul_nonneg_nonneg; lia).
      replace (b - 1) with ((b ^ (Y * t) * b - 1) - b * (b ^ (Y * t) - 1)) by ring. apply Z.divide_sub_r; [|apply Z.divide_mul_r]; auto. }
    destruct (Z.le_gt_cases 0 x) as [Hx|Hx].
    - destruct (Z.le_gt_cases y 0) as [Hy|Hy]; [apply (C q (r - 1) x (- y)); auto; lia|].
      assert (x = 0). { destruct (Z.eq_dec x 0); auto. pose proof (Z.mul_le_mono_nonneg 1 x 2 q ltac:(lia) ltac:(lia) ltac:(lia) ltac:(lia)). pose proof (Z.mul_nonneg_nonneg y (r - 1) ltac:(lia) ltac:(lia)). lia. }
      subst x. apply (C (r - 1) q y 0); auto; lia.
    - destruct (Z.le_gt_cases 0 y) as [Hy|Hy]; [apply (C (r - 1) q y (- x)); auto; lia|].
      pose proof (Z.mul_nonneg_nonneg (- y) (r - 1) ltac:(lia) ltac:(lia)). pose proof (Z.mul_nonneg_nonneg (- x) q ltac:(lia) ltac:(lia)). lia. }
  assert (X : (r | 1)). { replace 1 with (u * (b - 1) - (u * (b - 1) - 1)) by ring. apply Z.divide_sub_r; [apply Z.divide_mul_r; auto|apply Z.divide_trans with n; auto]. }
  apply Z.divide_1_r_nonneg in X; lia.
Qed.
Lemma pock_end : forall n f, 1 < n -> 0 < f -> n < f * f -> (forall r, prime r -> (r | n) -> (f | r - 1)) -> prime n.
Proof.
  intros n f Hn Hf L H. destruct (prime_dec n) as [P|P]; auto. exfalso. destruct (small_divisor n Hn P) as (r & R1 & R2 & R3).
  specialize (H r R1 R2). assert (1 < r) by (destruct R1; auto). apply Z.divide_pos_le in H; [|lia]. nia.
Qed.
Lemma divide_two : forall p q x, prime p -> prime q -> p <> q -> (p | x) -> (q | x) -> (p * q | x).
Proof.
  intros p q x Hp Hq N [z ->] D.
  assert (RP : rel_prime q p). { apply rel_prime_sym. apply prime_rel_prime; auto. intros Q. apply prime_div_prime in Q; auto. }
  rewrite Z.mul_comm in D. apply Gauss in D; auto. destruct D as [y ->]. exists y. ring.
Qed.
Lemma prime_trial : forall n, 1 < n -> forallb (fun d => negb (n mod d =? 0) || (n <=? d))%bool (map Z.of_nat (seq 2 63)) = true -> n < 64 * 64 -> prime n.
Proof.
  intros n Hn H L. destruct (prime_dec n) as [P|P]; auto. exfalso. destruct (small_divisor n Hn P) as (r & R1 & R2 & R3).
  assert (1 < r) by (destruct R1; auto). assert (r < 64) by nia. rewrite forallb_forall in H. specialize (H r).
  assert (I : In r (map Z.of_nat (seq 2 63))) by (apply in_map_iff; exists (Z.to_nat r); split; [lia|apply in_seq; lia]).
  specialize (H I). apply Z.mod_divide in R2; [|lia]. rewrite R2 in H. cbn [negb orb Z.eqb] in H. apply Z.leb_le in H. nia.
Qed.

(** Powers modulo [n]; [red] is any map that keeps the residue. *)
Fixpoint powm (red : Z -> Z) (a : Z) (e : positive) : Z :=
  match e with
  | xH => a
  | xO e => let t := powm red a e in red (t * t)
  | xI e => let t := powm red a e in red (red (t * t) * a)
  end.
Lemma powm_spec : forall n red a e, (forall x, (n | red x - x)) -> (n | powm red a e - a ^ Zpos e).
Proof.
  intros n red a e R.
  assert (SQ : forall t e, (n | t - a ^ Zpos e) -> (n | red (t * t) - a ^ (2 * Zpos e))).
  { intros t e' [z E]. rewrite (Z.mul_comm 2), Z.pow_mul_r by lia. rewrite Z.pow_2_r. destruct (R (t * t)) as [y Y]. replace (red (t * t)) with (t * t + y * n) by lia.
    replace t with (a ^ Zpos e' + z * n) by lia. exists (2 * a ^ Zpos e' * z + z * z * n + y). ring. }
  induction e as [e IH|e IH|]; cbn [powm].
  - apply SQ in IH. set (s := red (powm red a e * powm red a e)) in *. rewrite Pos2Z.inj_xI, Z.pow_add_r, Z.pow_1_r by lia.
    destruct IH as [z E]. destruct (R (s * a)) as [y Y]. exists (y + z * a). replace (red (s * a)) with (s * a + y * n) by lia. replace s with (a ^ (2 * Zpos e) + z * n) by lia. ring.
  - apply SQ in IH. rewrite Pos2Z.inj_xO. exact IH.
  - rewrite Z.pow_1_r, Z.sub_diag. exists 0. reflexivity.
Qed.
(** The check for one prime factor: with t = 2^((n-1)/q), t^q = 1 and t - 1 is invertible. *)
Definition pock_check (red : Z -> Z) (n q u : Z) : bool :=
  match q, (n - 1) / q with
  | Zpos qp, Zpos k =>
      let t := powm red 2 k in
      (q * Zpos k =? n - 1) && ((powm red t qp - 1) mod n =? 0) && ((u * (t - 1) - 1) mod n =? 0)
  | _, _ => false
  end%bool.
Lemma pock_check_spec : forall red n q u, (forall x, (n | red x - x)) -> 1 < n -> prime q -> pock_check red n q u = true ->
  forall r, prime r -> (r | n) -> (q | r - 1).
Proof.
  intros red n q u R Hn Hq C. unfold pock_check in C. destruct q as [|qp|]; try discriminate. destruct ((n - 1) / Zpos qp) as [|k|]; try discriminate. cbv zeta in C.
  apply andb_prop in C as [C C3]. apply andb_prop in C as [C1 C2]. apply Z.eqb_eq in C1, C2, C3.
  apply Z.mod_divide in C2, C3; try lia.
  pose proof (powm_spec n red 2 k R) as T. pose proof (powm_spec n red (powm red 2 k) qp R) as T2. set (t := powm red 2 k) in *. set (t2 := powm red t qp) in *.
  apply (pock_step n (Zpos qp) (Zpos k) 2 u); auto; [lia| |].
  - assert (TQ : (n | t ^ Zpos qp - (2 ^ Zpos k) ^ Zpos qp)).
    { assert (G : forall m, 0 <= m -> (n | t ^ m - (2 ^ Zpos k) ^ m)); [|apply G; lia]. apply natlike_ind; [exists 0; reflexivity|]. intros m Hm IH. rewrite !Z.pow_succ_r by auto.
      replace (t * t ^ m - 2 ^ Zpos k * (2 ^ Zpos k) ^ m) with (t * (t ^ m - (2 ^ Zpos k) ^ m) + (t - 2 ^ Zpos k) * (2 ^ Zpos k) ^ m) by ring.
      apply Z.divide_add_r; [apply Z.divide_mul_r|apply Z.divide_mul_l]; auto. }
    rewrite <- C1, Z.mul_comm, Z.pow_mul_r by lia.
    replace ((2 ^ Zpos k) ^ Zpos qp - 1) with ((t2 - 1) - (t2 - t ^ Zpos qp) - (t ^ Zpos qp - (2 ^ Zpos k) ^ Zpos qp)) by ring.
    apply Z.divide_sub_r; [apply Z.divide_sub_r|]; auto.
  - replace (u * (2 ^ Zpos k - 1) - 1) with ((u * (t - 1) - 1) - u * (t - 2 ^ Zpos k)) by ring. apply Z.divide_sub_r; [|apply Z.divide_mul_r]; auto.
Qed.
(** Two reductions: by division, and by folding for [n] = 2^k - c. *)
Definition rmod (n x : Z) : Z := x mod n.
Lemma rmod_ok : forall n x, 0 < n -> (n | rmod n x - x).
Proof. intros n x H. unfold rmod. exists (- (x / n)). pose proof (Z.div_mod x n ltac:(lia)). lia. Qed.
Definition fold1 (k c x : Z) : Z := Z.shiftr x k * c + Z.land x (Z.ones k).
Lemma fold1_ok : forall k c x, 0 <= k -> (2 ^ k - c | fold1 k c x - x).
Proof.
  intros k c x H. unfold fold1. rewrite Z.shiftr_div_pow2, Z.land_ones by auto. exists (- (x / 2 ^ k)).
  pose proof (Z.div_mod x (2 ^ k) ltac:(apply Z.pow_nonzero; lia)) as D. set (q := x / 2^k) in *. set (r := x mod 2^k) in *. rewrite D. ring.
Qed.
Definition fold3 (k c x : Z) : Z := fold1 k c (fold1 k c (fold1 k c x)).
Lemma fold3_ok : forall k c x, 0 <= k -> (2 ^ k - c | fold3 k c x - x).
Proof.
  intros k c x H. unfold fold3. set (y := fold1 k c x). set (z := fold1 k c y). pose proof (fold1_ok k c x H) as A. pose proof (fold1_ok k c y H) as B. pose proof (fold1_ok k c z H) as C.
  fold y in A. fold z in B. replace (fold1 k c z - x) with ((fold1 k c z - z) + (z - y) + (y - x)) by ring. apply Z.divide_add_r; [apply Z.divide_add_r|]; auto.
Qed.
Lemma divide_three : forall p q s x, prime p -> prime q -> prime s -> p <> q -> p <> s -> q <> s -> (p | x) -> (q | x) -> (s | x) -> (p * q * s | x).
Proof.
  intros p q s x Hp Hq Hs N1 N2 N3 D1 D2 D3. destruct (divide_two p q x Hp Hq N1 D1 D2) as [z ->].
  assert (R1 : rel_prime s p) by (apply rel_prime_sym, prime_rel_prime; auto; intros Q; apply prime_div_prime in Q; auto).
  assert (R2 : rel_prime s q) by (apply rel_prime_sym, prime_rel_prime; auto; intros Q; apply prime_div_prime in Q; auto).
  rewrite Z.mul_comm, <- Z.mul_assoc in D3. apply Gauss in D3; auto. apply Gauss in D3; auto. destruct D3 as [y ->]. exists y. ring.
Qed.
