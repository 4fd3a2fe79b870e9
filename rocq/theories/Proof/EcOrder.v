(** Every point of the curve is a multiple of the generator: there is no room for another coset. *)
From Coq Require Import Lia Znumtheory.
From Verif Require Import Base.Bytes Base.BytesFacts Base.Curve Base.Primes Spec.Keys Spec.Point Spec.Curve Proof.PointFacts Proof.CurveFacts Proof.EcPoint Proof.EcGroup Proof.EcRecode Proof.EcMult Proof.EcTable.
Open Scope Z_scope.
Local Hint Resolve smul_point ec_neg_point ec_add_point gen_point : core.

(** ** Counting *)
Definition below_list (m : Z) : list Z := map Z.of_nat (seq 0 (Z.to_nat m)).
Lemma below_list_in : forall m x, In x (below_list m) <-> 0 <= x < m.
Proof.
  intros m x. unfold below_list. rewrite in_map_iff. split.
  - intros (i & <- & I). apply in_seq in I. lia.
  - intros H. exists (Z.to_nat x). split; [lia|]. apply in_seq. lia.
Qed.
Lemma nodup_map : forall (f : Z -> Z) l, NoDup l -> (forall x y, In x l -> In y l -> f x = f y -> x = y) -> NoDup (map f l).
Proof.
  intros f l N. induction N as [|a l NI N IH]; intros J; cbn [map]; [constructor|]. constructor.
  - intros I. apply in_map_iff in I as (x & E & I). assert (x = a) by (apply J; [right; auto|left; auto|auto]). subst. contradiction.
  - apply IH. intros x y X Y. apply J; right; auto.
Qed.
Lemma pigeon : forall (f : Z -> Z) m k, 0 <= m -> 0 <= k -> (forall x, 0 <= x < m -> 0 <= f x < k) -> (forall x y, 0 <= x < m -> 0 <= y < m -> f x = f y -> x = y) -> m <= k.
Proof.
  intros f m k M K R J.
  assert (N : NoDup (map f (below_list m))).
  { apply nodup_map; [|intros x y X Y; apply J; apply below_list_in; auto]. unfold below_list. generalize (seq_NoDup (Z.to_nat m) 0). generalize (seq 0 (Z.to_nat m)). intros l H.
    induction H as [|a l NI H IH]; cbn [map]; constructor; auto. intros I. apply in_map_iff in I as (x & E & I). apply Nat2Z.inj in E. subst. contradiction. }
  assert (I : incl (map f (below_list m)) (below_list k)).
  { intros y Y. apply in_map_iff in Y as (x & <- & X). apply below_list_in, R, below_list_in. auto. }
  pose proof (NoDup_incl_length N I) as L. unfold below_list in L. rewrite !map_length, !seq_length in L. lia.
Qed.
(** A number for each point. *)
Definition code (a : point) : Z := match a with None => 2 * field_prime | Some (x, y) => x + field_prime * (y mod 2) end.
Lemma code_range : forall a, is_point a -> 0 <= code a < 2 * field_prime + 1.
Proof. intros [[x y]|] A; unfold code; pose proof P_pos; [|lia]. destruct A as (X & Y & _). pose proof (Z.mod_pos_bound y 2 ltac:(lia)). nia. Qed.
Lemma P_mod2 : field_prime mod 2 = 1.
Proof. pose proof P_odd as H. set (p := P) in *. clearbody p. clear - H. dlia. Qed.
Lemma code_inj : forall a b, is_point a -> is_point b -> code a = code b -> a = b.
Proof.
  intros [[x1 y1]|] [[x2 y2]|] A B E; unfold code in E; pose proof P_pos; pose proof A as A'; pose proof B as B'; auto.
  - destruct A' as (X1 & Y1 & _). destruct B' as (X2 & Y2 & _). pose proof (Z.mod_pos_bound y1 2 ltac:(lia)). pose proof (Z.mod_pos_bound y2 2 ltac:(lia)).
    assert (x1 = x2 /\ y1 mod 2 = y2 mod 2) as [<- M].
    { clear - X1 X2 H H0 H1 E. revert E H0 H1. generalize (y1 mod 2) (y2 mod 2). generalize dependent P. intros p X1 X2 H a b E H0 H1.
      assert (a = 0 \/ a = 1) as A by lia. assert (b = 0 \/ b = 1) as B by lia. destruct A as [-> | ->], B as [-> | ->]; lia. } f_equal. f_equal. pose proof (good_toP _ A) as G1. pose proof (good_toP _ B) as G2. cbn [toP good] in *.
    destruct (same_x _ _ _ _ _ _ _ _ F_field F_dec F7 _ _ _ G1 G2) as [K|K]; [apply F_range_inj; auto|]. exfalso. rewrite toF_opp in K. apply toF_eq in K.
    assert (y2 <> 0) by (intros ->; apply (F_odd _ _ G2); reflexivity). rewrite (Z.mod_small y1) in K by lia.
    assert (K2 : y1 = P - y2) by (rewrite K; rewrite <- (Z.mod_small (P - y2) P) by lia; replace (P - y2) with (- y2 + 1 * P) by ring; rewrite Z.mod_add by lia; reflexivity).
    pose proof P_mod2 as PM. rewrite K2 in M. set (p := P) in *. clearbody p. clear - M PM. dlia.
  - destruct A' as (X1 & Y1 & _). pose proof (Z.mod_pos_bound y1 2 ltac:(lia)). nia.
  - destruct B' as (X1 & Y1 & _). pose proof (Z.mod_pos_bound y2 2 ltac:(lia)). nia.
Qed.

(** ** Multiples of the generator *)
Definition multiple (q : point) : Prop := exists k, q = smul k gen.
Lemma gen_ne : gen <> None. Proof. discriminate. Qed.
Lemma smul_gen_inj : forall i j, 0 <= i < group_order -> 0 <= j < group_order -> smul i gen = smul j gen -> i = j.
Proof.
  intros i j I J E. assert (D : smul (i - j) gen = None). { unfold Z.sub. rewrite smul_add, smul_opp, E by auto. apply ec_add_neg. auto. }
  destruct (smul_order _ _ _ gen_point order_prime gen_order D) as [K|K]; [discriminate|]. destruct (Z.eq_dec (i - j) 0); [lia|]. exfalso. apply (small_ndiv group_order (i - j)); auto; pose proof order_pos; lia.
Qed.
Lemma halve : forall q, is_point q -> multiple (smul 2 q) -> multiple q.
Proof.
  intros q Q [k K]. pose proof order_limits as [R O]. set (h := (group_order + 1) / 2). assert (H2 : 2 * h = group_order + 1) by (unfold h; clear - O; generalize dependent group_order; intros; dlia).
  exists (k * h). assert (D : smul 2 (ec_add q (ec_neg (smul (k * h) gen))) = None).
  { rewrite smul_distr, K by auto. rewrite <- smul_opp, <- smul_smul, <- smul_add by auto. replace (k + 2 * - (k * h)) with (- k * group_order) by (replace (2 * - (k * h)) with (- k * (2 * h)) by ring; rewrite H2; ring).
    rewrite smul_smul, gen_order by auto. apply smul_none. }
  set (t := ec_add q (ec_neg (smul (k * h) gen))) in *. assert (T : is_point t) by (unfold t; auto).
  assert (t = None) as N.
  { destruct t as [[x y]|] eqn:E; [|reflexivity]. exfalso. rewrite smul_nonneg, ec_mul_2 in D by lia. apply ec_sum_none in D; auto. pose proof (good_toP _ T) as G. cbn [toP good] in G.
    apply (f_equal toP) in D. rewrite neg_toP in D. cbn [toP ptneg] in D. apply (neg_ne _ _ _ _ _ _ _ _ F_field F_dec F7 F_two F_odd _ _ G). exact (f_equal (fun a => match a with Aff _ u => u | Inf => F0 end) D). }
  unfold t in N. apply ec_sum_none in N; auto. rewrite <- (ec_neg_neg q), <- N, ec_neg_neg by auto. reflexivity.
Qed.
Lemma coset_inj : forall q, is_point q -> ~ multiple q -> forall u w i j, 0 <= u <= 2 -> 0 <= w <= 2 -> 0 <= i < group_order -> 0 <= j < group_order ->
  ec_add (smul u q) (smul i gen) = ec_add (smul w q) (smul j gen) -> u = w /\ i = j.
Proof.
  intros q Q NM u w i j U W I J E.
  assert (S : forall d, smul d q = smul (j - i) gen -> u - w = d -> multiple (smul d q)) by (intros d D _; exists (j - i); auto).
  assert (D : smul (u - w) q = smul (j - i) gen).
  { unfold Z.sub. rewrite !smul_add, !smul_opp by auto.
    transitivity (ec_add (ec_add (ec_add (smul u q) (smul i gen)) (ec_neg (smul w q))) (ec_neg (smul i gen))).
    - rewrite (ec_add_assoc (smul u q)), (ec_add_comm (smul i gen)), <- ec_add_assoc, ec_add_assoc, ec_add_neg, ec_add_0_r by auto. reflexivity.
    - rewrite E. rewrite (ec_add_comm (smul w q)) by auto. rewrite (ec_add_assoc (smul j gen)), ec_add_neg, ec_add_0_r by auto. reflexivity. }
  assert (M : forall d, d = 1 \/ d = 2 -> ~ multiple (smul d q)).
  { intros d [-> | ->]; [rewrite smul_1; auto|]. intros K. apply NM, halve; auto. }
  destruct (Z.eq_dec u w) as [<-|N].
  - split; [auto|]. apply smul_gen_inj; auto. rewrite <- (ec_add_cancel (smul u q) (smul i gen)), E, ec_add_cancel by auto. reflexivity.
  - exfalso. destruct (Z_lt_le_dec w u).
    + apply (M (u - w)); [lia|]. exists (j - i). exact D.
    + apply (M (w - u)); [lia|]. exists (i - j). replace (w - u) with (- (u - w)) by lia. replace (i - j) with (- (j - i)) by lia. rewrite !smul_opp, D by auto. reflexivity.
Qed.
Lemma three_orders : 2 * field_prime + 1 < 3 * group_order.
Proof. vm_compute. reflexivity. Qed.
Lemma multiple_dec : forall q, is_point q -> ~ ~ multiple q.
Proof.
  intros q Q NM. set (n := group_order) in *. assert (NP : 0 < n) by apply order_pos.
  pose proof (pigeon (fun t => code (ec_add (smul (t / n) q) (smul (t mod n) gen))) (3 * n) (2 * field_prime + 1)) as PG.
  assert (R : forall t, 0 <= t < 3 * n -> 0 <= t / n <= 2 /\ 0 <= t mod n < n).
  { intros t T. split; [|apply Z.mod_pos_bound; auto]. split; [apply Z.div_pos; lia|]. assert (t / n < 3); [|lia]. apply Z.div_lt_upper_bound; lia. }
  pose proof three_orders as T3. pose proof P_pos. fold n in T3. assert (3 * n <= 2 * field_prime + 1); [|lia]. apply PG; [lia|lia| |].
  - intros t T. apply code_range. auto.
  - intros s t S T E. apply code_inj in E; auto. destruct (R s S), (R t T). destruct (coset_inj q Q NM _ _ _ _ H0 H2 H1 H3 E) as [A B].
    rewrite (Z.div_mod s n), (Z.div_mod t n), A, B by lia. reflexivity.
Qed.
Lemma point_order : forall q, is_point q -> smul group_order q = None.
Proof.
  intros q Q. destruct (smul group_order q) as [[x y]|] eqn:E; [|reflexivity]. exfalso. apply (multiple_dec q Q). intros [k ->].
  rewrite <- smul_smul in E by auto. rewrite Z.mul_comm, smul_smul, gen_order, smul_none in E by auto. discriminate.
Qed.
