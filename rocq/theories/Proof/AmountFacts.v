(** Rounding of amounts. *)
From Coq Require Import Lia.
From Verif Require Import Base.Bytes Base.BytesFacts Model.Amount Spec.Amount.
Open Scope Z_scope.

Section Rnd.
Variable p n d : Z.
Hypothesis P : 1 <= p.
Hypothesis D : 0 < d.
Hypothesis N : 2 ^ (p - 1) <= n / d.
Let L := Z.log2 (n / d).
Let u := 2 ^ (L + 1 - p).
Lemma big : 0 < n / d. Proof. pose proof (Z.pow_pos_nonneg 2 (p - 1)). lia. Qed.
Lemma log_ge : p - 1 <= L. Proof. unfold L. apply Z.log2_le_pow2; [exact big|exact N]. Qed.
Lemma u_pos : 0 < u. Proof. unfold u. apply Z.pow_pos_nonneg; [lia|pose proof log_ge; lia]. Qed.
Lemma spec : 2 ^ L <= n / d < 2 ^ (L + 1).
Proof. pose proof (Z.log2_spec (n / d) big) as S. fold L in S. rewrite Z.add_1_r. exact S. Qed.
Lemma pow_split : 2 ^ L = 2 ^ (p - 1) * u.
Proof. unfold u. rewrite <- Z.pow_add_r by (pose proof log_ge; lia). f_equal. lia. Qed.
Lemma m_range : 2 ^ (p - 1) <= n / (d * u) < 2 * 2 ^ (p - 1).
Proof.
  pose proof u_pos as U. pose proof spec as [S1 S2]. rewrite Z.pow_add_r in S2 by (pose proof log_ge; lia). rewrite pow_split in S1, S2. change (2 ^ 1) with 2 in S2.
  rewrite <- Z.div_div by lia. split; [apply Z.div_le_lower_bound; lia|apply Z.div_lt_upper_bound; lia].
Qed.
Lemma rnd_cases : let m := n / (d * u) in let r := n mod (d * u) in
  (rnd p n d = m * u /\ 2 * r <= d * u) \/ (rnd p n d = (m + 1) * u /\ d * u <= 2 * r).
Proof.
  cbv zeta. unfold rnd. fold L. fold u. set (m := n / (d * u)). set (r := n mod (d * u)).
  destruct (Z.ltb_spec (2 * r) (d * u)); [left; lia|]. destruct (Z.ltb_spec (d * u) (2 * r)); [right; lia|]. destruct (Z.even m); [left|right]; lia.
Qed.
Lemma rnd_range : 2 ^ L <= rnd p n d <= 2 ^ (L + 1).
Proof.
  pose proof u_pos as U. pose proof m_range as [M1 M2]. rewrite Z.pow_add_r by (pose proof log_ge; lia). rewrite pow_split. change (2 ^ 1) with 2.
  set (h := 2 ^ (p - 1)) in *. pose proof rnd_cases as C. cbv zeta in C. destruct C as [[-> _]|[-> _]]; nia.
Qed.
Lemma rnd_half : 2 * Z.abs (rnd p n d * d - n) <= d * u.
Proof.
  pose proof u_pos as U. assert (DU : 0 < d * u) by nia. pose proof (Z.div_mod n (d * u) ltac:(lia)) as E. pose proof (Z.mod_pos_bound n (d * u) DU) as R.
  pose proof rnd_cases as C. cbv zeta in C. set (m := n / (d * u)) in *. set (r := n mod (d * u)) in *. destruct C as [[-> C]|[-> C]].
  - replace (m * u * d - n) with (- r) by lia. lia.
  - replace ((m + 1) * u * d - n) with (d * u - r) by lia. lia.
Qed.
(** The result has [p] digits. *)
Lemma rnd_form : exists m, 2 ^ (p - 1) <= m <= 2 * 2 ^ (p - 1) /\ rnd p n d = m * u.
Proof. pose proof m_range as [M1 M2]. pose proof rnd_cases as C. cbv zeta in C. destruct C as [[-> _]|[-> _]]; eexists; (split; [|reflexivity]); lia. Qed.
Lemma rnd_error : 2 ^ p * Z.abs (rnd p n d * d - n) <= n.
Proof.
  pose proof u_pos as U. pose proof spec as [S1 _]. rewrite pow_split in S1. replace (2 ^ p) with (2 * 2 ^ (p - 1)) by (rewrite <- (Z.pow_succ_r 2 (p - 1)) by lia; f_equal; lia).
  assert (H : 0 < 2 ^ (p - 1)) by (apply Z.pow_pos_nonneg; lia). set (h := 2 ^ (p - 1)) in *.
  assert (DU : 0 < d * u) by nia. pose proof (Z.div_mod n (d * u) ltac:(lia)) as E. pose proof (Z.mod_pos_bound n (d * u) DU) as R.
  assert (HN : h * (d * u) <= n) by (pose proof (Z.mul_div_le n d D); nia).
  assert (A : 2 * Z.abs (rnd p n d * d - n) <= d * u).
  { pose proof rnd_cases as C. cbv zeta in C. set (m := n / (d * u)) in *. set (r := n mod (d * u)) in *. destruct C as [[-> C]|[-> C]].
    - replace (m * u * d - n) with (- r) by lia. lia.
    - replace ((m + 1) * u * d - n) with (d * u - r) by lia. lia. }
  assert (0 <= h) by lia. set (x := Z.abs (rnd p n d * d - n)) in *. assert (h * (2 * x) <= h * (d * u)) by (apply Z.mul_le_mono_nonneg_l; lia). lia.
Qed.
End Rnd.

Lemma rnd_mono : forall p d n n', 1 <= p -> 0 < d -> 2 ^ (p - 1) <= n / d -> n <= n' -> rnd p n d <= rnd p n' d.
Proof.
  intros p d n n' P D N LE. assert (Q : n / d <= n' / d) by (apply Z.div_le_mono; lia). assert (N' : 2 ^ (p - 1) <= n' / d) by lia.
  pose proof (rnd_range p n d P D N) as [_ H]. pose proof (rnd_range p n' d P D N') as [H' _]. pose proof (Z.log2_le_mono _ _ Q) as LL.
  destruct (Z.eq_dec (Z.log2 (n / d)) (Z.log2 (n' / d))) as [E|NE].
  - unfold rnd. rewrite <- E. pose proof (u_pos p n d P N) as U. set (u := 2 ^ (Z.log2 (n / d) + 1 - p)) in *.
    assert (DU : 0 < d * u) by nia. pose proof (Z.div_mod n (d * u) ltac:(lia)) as E1. pose proof (Z.div_mod n' (d * u) ltac:(lia)) as E2.
    pose proof (Z.mod_pos_bound n (d * u) DU). pose proof (Z.mod_pos_bound n' (d * u) DU). pose proof (Z.div_le_mono n n' (d * u) DU LE) as ML.
    set (m := n / (d * u)) in *. set (m' := n' / (d * u)) in *. set (r := n mod (d * u)) in *. set (r' := n' mod (d * u)) in *.
    destruct (Z.eq_dec m m') as [Em|Nm].
    + rewrite <- Em in *. assert (RR : r <= r') by lia. clearbody m m' r r'. clear Em.
      destruct (Z.ltb_spec (2 * r) (d * u)), (Z.ltb_spec (d * u) (2 * r)), (Z.ltb_spec (2 * r') (d * u)), (Z.ltb_spec (d * u) (2 * r')), (Z.even m); nia.
    + assert (X : (m + 1) * u <= m' * u) by nia. clearbody m m' r r'.
      assert (A : forall x (b c e : bool), (if b then x * u else if c then (x + 1) * u else if e then x * u else (x + 1) * u) = x * u \/ (if b then x * u else if c then (x + 1) * u else if e then x * u else (x + 1) * u) = (x + 1) * u)
        by (intros x [] [] []; auto).
      destruct (A m (2 * r <? d * u) (d * u <? 2 * r) (Z.even m)) as [->| ->]; destruct (A m' (2 * r' <? d * u) (d * u <? 2 * r') (Z.even m')) as [->| ->]; nia.
  - eapply Z.le_trans; [exact H|]. eapply Z.le_trans; [|exact H']. apply Z.pow_le_mono_r; [lia|]. lia.
Qed.

(** ** Amounts as floats *)
Definition K : Z := 2 ^ unit_bits.
Lemma K_pos : 0 < K. Proof. reflexivity. Qed.
Definition first_float (a : Z) : Z := rnd 24 (a * K) 1.
Lemma large1 : forall a, 1 <= a -> 2 ^ (24 - 1) <= (a * K) / 1.
Proof. intros a A. rewrite Z.div_1_r. assert (2 ^ (24 - 1) <= K) by (vm_compute; discriminate). pose proof K_pos. nia. Qed.
Lemma first_range : forall a, 1 <= a -> K <= first_float a.
Proof.
  intros a A. destruct (rnd_range 24 (a * K) 1 ltac:(lia) ltac:(lia) (large1 a A)) as [H _]. eapply Z.le_trans; [|exact H]. rewrite Z.div_1_r.
  assert (B : Z.log2 K <= Z.log2 (a * K)) by (apply Z.log2_le_mono; pose proof K_pos; nia). change K with (2 ^ 100) at 1. apply Z.pow_le_mono_r; [lia|]. exact B.
Qed.
Lemma large2 : forall dp x, dp = 53 \/ dp = 24 -> K <= x -> 2 ^ (dp - 1) <= x / 10 ^ 8.
Proof.
  intros dp x D X. assert (B : K / 10 ^ 8 <= x / 10 ^ 8) by (apply Z.div_le_mono; [reflexivity|exact X]). eapply Z.le_trans; [|exact B]. destruct D as [->| ->]; vm_compute; discriminate.
Qed.
Definition second_float (dp x : Z) : Z := rnd dp x (10 ^ 8).
Lemma second_range : forall dp x, dp = 53 \/ dp = 24 -> K <= x -> 2 ^ 73 <= second_float dp x.
Proof.
  intros dp x D X. destruct (rnd_range dp x (10 ^ 8) ltac:(lia) ltac:(reflexivity) (large2 dp x D X)) as [H _]. eapply Z.le_trans; [|exact H].
  apply Z.pow_le_mono_r; [lia|]. assert (B : Z.log2 (K / 10 ^ 8) <= Z.log2 (x / 10 ^ 8)) by (apply Z.log2_le_mono, Z.div_le_mono; [reflexivity|exact X]). exact B.
Qed.
Lemma large3 : forall y, 2 ^ 73 <= y -> 2 ^ (24 - 1) <= y / 1.
Proof. intros y Y. rewrite Z.div_1_r. eapply Z.le_trans; [|exact Y]. vm_compute. discriminate. Qed.
Lemma btc_steps : forall dp a, 1 <= a -> btcAmount dp a = rnd 24 (second_float dp (first_float a)) 1.
Proof. intros dp a A. unfold btcAmount. destruct (Z.eqb_spec a 0); [lia|]. reflexivity. Qed.

Lemma close : forall dp a, dp = 53 \/ dp = 24 -> 0 <= a -> within (2 ^ 22) a (btcAmount dp a).
Proof.
  intros dp a D A. destruct (Z.eq_dec a 0) as [->|NZ]; [vm_compute; discriminate|]. rewrite btc_steps by lia. unfold within. fold K.
  pose proof (rnd_error 24 (a * K) 1 ltac:(lia) ltac:(lia) (large1 a ltac:(lia))) as E1. fold (first_float a) in E1. rewrite Z.mul_1_r in E1.
  pose proof (first_range a ltac:(lia)) as R1. set (x := first_float a) in *.
  pose proof (rnd_error dp x (10 ^ 8) ltac:(lia) ltac:(reflexivity) (large2 dp x D R1)) as E2. fold (second_float dp x) in E2.
  pose proof (second_range dp x D R1) as R2. set (y := second_float dp x) in *.
  pose proof (rnd_error 24 y 1 ltac:(lia) ltac:(lia) (large3 y R2)) as E3. rewrite Z.mul_1_r in E3. set (v := rnd 24 y 1) in *.
  assert (E2' : 2 ^ 24 * Z.abs (y * 10 ^ 8 - x) <= x).
  { eapply Z.le_trans; [|exact E2]. apply Z.mul_le_mono_nonneg_r; [lia|]. destruct D as [->| ->]; vm_compute; discriminate. }
  assert (E3' : 2 ^ 24 * Z.abs (v * 10 ^ 8 - y * 10 ^ 8) <= y * 10 ^ 8).
  { replace (v * 10 ^ 8 - y * 10 ^ 8) with ((v - y) * 10 ^ 8) by lia. rewrite Z.abs_mul. change (Z.abs (10 ^ 8)) with (10 ^ 8).
    rewrite Z.mul_assoc. apply Z.mul_le_mono_nonneg_r; [vm_compute; discriminate|exact E3]. }
  pose proof K_pos as KP. set (z := a * K) in *. assert (ZP : 0 < z) by (unfold z; nia). clearbody x y z v. set (w := v * 10 ^ 8) in *. set (t := y * 10 ^ 8) in *. clearbody w t.
  change (2 ^ 24) with 16777216 in *. change (2 ^ 22) with 4194304. lia.
Qed.
Lemma first_mono : forall a b, 1 <= a -> a <= b -> first_float a <= first_float b.
Proof. intros a b A B. apply rnd_mono; [lia|lia|apply large1, A|pose proof K_pos; nia]. Qed.
Lemma monotone : forall dp a b, dp = 53 \/ dp = 24 -> 0 <= a <= b -> btcAmount dp a <= btcAmount dp b.
Proof.
  intros dp a b D [A B]. destruct (Z.eq_dec a 0) as [->|NZ].
  - change (btcAmount dp 0) with 0. destruct (Z.eq_dec b 0) as [->|NB]; [reflexivity|]. rewrite btc_steps by lia. pose proof (second_range dp _ D (first_range b ltac:(lia))) as R.
    destruct (rnd_range 24 _ 1 ltac:(lia) ltac:(lia) (large3 _ R)) as [H _]. eapply Z.le_trans; [|exact H]. apply Z.pow_nonneg. lia.
  - rewrite !btc_steps by lia. pose proof (first_mono a b ltac:(lia) B) as F. pose proof (first_range a ltac:(lia)) as RA.
    assert (G : second_float dp (first_float a) <= second_float dp (first_float b)) by (apply rnd_mono; [lia|reflexivity|apply large2; auto|exact F]).
    apply rnd_mono; [lia|lia|apply large3, second_range; auto|exact G].
Qed.
(** ** Amounts that look the same *)
Lemma first_at : forall a e, 0 <= e -> 2 ^ 23 * 2 ^ e <= a < 2 ^ 24 * 2 ^ e -> let m := a / 2 ^ e in let r := a mod 2 ^ e in
  first_float a = (if 2 * r <? 2 ^ e then m * 2 ^ e else if 2 ^ e <? 2 * r then (m + 1) * 2 ^ e else if Z.even m then m * 2 ^ e else (m + 1) * 2 ^ e) * K.
Proof.
  intros a e E A m r. unfold first_float, rnd. rewrite Z.div_1_r, Z.mul_1_l. pose proof K_pos as KP. assert (UP : 0 < 2 ^ e) by (apply Z.pow_pos_nonneg; lia).
  assert (LG : Z.log2 (a * K) = 100 + (23 + e)).
  { change K with (2 ^ 100). rewrite Z.log2_mul_pow2 by nia. f_equal. apply Z.log2_unique; [lia|]. unfold Z.succ. replace (23 + e + 1) with (24 + e) by lia. rewrite !Z.pow_add_r by lia. exact A. }
  rewrite LG. replace (100 + (23 + e) + 1 - 24) with (e + 100) by lia. rewrite Z.pow_add_r by lia. change (2 ^ 100) with K.
  rewrite Z.div_mul_cancel_r, Z.mul_mod_distr_r by lia. fold m r. rewrite !Z.mul_assoc.
  replace (2 * r * K <? 2 ^ e * K) with (2 * r <? 2 ^ e) by (destruct (Z.ltb_spec (2 * r) (2 ^ e)), (Z.ltb_spec (2 * r * K) (2 ^ e * K)); auto; nia).
  replace (2 ^ e * K <? 2 * r * K) with (2 ^ e <? 2 * r) by (destruct (Z.ltb_spec (2 ^ e) (2 * r)), (Z.ltb_spec (2 ^ e * K) (2 * r * K)); auto; nia).
  destruct (2 * r <? 2 ^ e), (2 ^ e <? 2 * r), (Z.even m); reflexivity.
Qed.
Lemma same_first : forall dp a b, 1 <= a -> 1 <= b -> first_float a = first_float b -> btcAmount dp a = btcAmount dp b.
Proof. intros dp a b A B E. rewrite !btc_steps by auto. rewrite E. reflexivity. Qed.
Lemma first_multiple : forall m e k, 0 <= e -> 2 ^ 23 <= m < 2 ^ 24 -> 0 <= k -> 2 * k < 2 ^ e -> first_float (m * 2 ^ e + k) = m * 2 ^ e * K.
Proof.
  intros m e k E M K0 K1. assert (UP : 0 < 2 ^ e) by (apply Z.pow_pos_nonneg; lia). rewrite (first_at _ e E) by nia. cbv zeta.
  replace ((m * 2 ^ e + k) / 2 ^ e) with m by (rewrite Z.div_add_l by lia; rewrite (Z.div_small k) by lia; lia).
  replace ((m * 2 ^ e + k) mod 2 ^ e) with k by (rewrite Z.add_comm, Z.mod_add by lia; rewrite Z.mod_small; lia).
  destruct (Z.ltb_spec (2 * k) (2 ^ e)); [reflexivity|lia].
Qed.
Lemma first_fixed : forall m e, 0 <= e -> 2 ^ 23 <= m <= 2 ^ 24 -> first_float (m * 2 ^ e) = m * 2 ^ e * K.
Proof.
  intros m e E M. destruct (Z.eq_dec m (2 ^ 24)) as [->|N].
  - replace (2 ^ 24 * 2 ^ e) with (2 ^ 23 * 2 ^ (e + 1) + 0) by (rewrite Z.pow_add_r by lia; change (2 ^ 24) with 16777216; change (2 ^ 23) with 8388608; lia).
    rewrite first_multiple; [lia|lia|vm_compute; split; [discriminate|reflexivity]|lia|]. assert (0 < 2 ^ (e + 1)) by (apply Z.pow_pos_nonneg; lia). lia.
  - rewrite <- (Z.add_0_r (m * 2 ^ e)) at 1. assert (0 < 2 ^ e) by (apply Z.pow_pos_nonneg; lia). apply first_multiple; lia.
Qed.
Lemma look_same : forall dp m e k, 0 <= e -> 2 ^ 23 <= m < 2 ^ 24 -> 0 <= k -> 2 * k < 2 ^ e -> btcAmount dp (m * 2 ^ e + k) = btcAmount dp (m * 2 ^ e).
Proof.
  intros dp m e k E M K0 K1. assert (UP : 0 < 2 ^ e) by (apply Z.pow_pos_nonneg; lia). assert (0 < 2 ^ 23) by reflexivity.
  apply same_first; [nia|nia|]. rewrite first_multiple, first_fixed by (auto; lia). reflexivity.
Qed.
Lemma neighbour : forall dp a, 2 ^ 25 <= a -> exists b, (b = a - 1 \/ b = a + 1) /\ btcAmount dp b = btcAmount dp a.
Proof.
  intros dp a A. set (e := Z.log2 a - 23). assert (AP : 0 < a) by (assert (0 < 2 ^ 25) by reflexivity; lia).
  assert (E : 2 <= e) by (unfold e; assert (25 <= Z.log2 a) by (apply Z.log2_le_pow2; auto); lia).
  assert (RA : 2 ^ 23 * 2 ^ e <= a < 2 ^ 24 * 2 ^ e).
  { rewrite <- !Z.pow_add_r by lia. pose proof (Z.log2_spec a AP) as S. replace (23 + e) with (Z.log2 a) by (unfold e; lia). replace (24 + e) with (Z.succ (Z.log2 a)) by (unfold e; lia). exact S. }
  assert (UP : 4 <= 2 ^ e) by (change 4 with (2 ^ 2); apply Z.pow_le_mono_r; lia).
  pose proof (Z.div_mod a (2 ^ e) ltac:(lia)) as DM. pose proof (Z.mod_pos_bound a (2 ^ e) ltac:(lia)) as R.
  assert (M : 2 ^ 23 <= a / 2 ^ e < 2 ^ 24) by (split; [apply Z.div_le_lower_bound; lia|apply Z.div_lt_upper_bound; lia]).
  pose proof (first_at a e ltac:(lia) RA) as F. cbv zeta in F. set (m := a / 2 ^ e) in *. set (r := a mod 2 ^ e) in *.
  assert (C : exists v, (v = m \/ v = m + 1) /\ first_float a = v * 2 ^ e * K).
  { rewrite F. destruct (2 * r <? 2 ^ e), (2 ^ e <? 2 * r), (Z.even m); eauto. }
  destruct C as (v & V & FV). assert (FX : first_float (v * 2 ^ e) = v * 2 ^ e * K) by (apply first_fixed; lia).
  assert (Q : forall b, 1 <= b -> first_float b = first_float a -> btcAmount dp b = btcAmount dp a) by (intros; apply same_first; lia).
  destruct (Z.lt_trichotomy (v * 2 ^ e) a) as [T|[T|T]].
  - exists (a - 1). split; [auto|]. assert (B : 1 <= v * 2 ^ e) by (assert (0 < 2 ^ 23) by reflexivity; nia). apply Q; [lia|].
    pose proof (first_mono (v * 2 ^ e) (a - 1) B ltac:(lia)). pose proof (first_mono (a - 1) a ltac:(lia) ltac:(lia)). lia.
  - exists (a + 1). split; [auto|]. apply Q; [lia|]. assert (v = m) by nia. subst v. rewrite FV. rewrite <- T at 1. apply first_multiple; lia.
  - exists (a + 1). split; [auto|]. apply Q; [lia|]. pose proof (first_mono a (a + 1) ltac:(lia) ltac:(lia)). pose proof (first_mono (a + 1) (v * 2 ^ e) ltac:(lia) ltac:(lia)). lia.
Qed.

(** ** Up to an eighth of a bitcoin *)
Lemma rnd_fixed : forall m e, 0 <= e -> 2 ^ 23 <= m <= 2 ^ 24 -> rnd 24 (m * 2 ^ e) 1 = m * 2 ^ e.
Proof.
  assert (F : forall m e, 0 <= e -> 2 ^ 23 <= m < 2 ^ 24 -> rnd 24 (m * 2 ^ e) 1 = m * 2 ^ e).
  { intros m e E M. unfold rnd. rewrite Z.div_1_r, Z.mul_1_l. assert (UP : 0 < 2 ^ e) by (apply Z.pow_pos_nonneg; lia). assert (0 < 2 ^ 23) by reflexivity.
    rewrite Z.log2_mul_pow2 by lia. replace (Z.log2 m) with 23 by (symmetry; apply Z.log2_unique; [lia|exact M]). replace (e + 23 + 1 - 24) with e by lia.
    rewrite Z.div_mul, Z.mod_mul by lia. destruct (Z.ltb_spec (2 * 0) (2 ^ e)); [reflexivity|lia]. }
  intros m e E M. destruct (Z.eq_dec m (2 ^ 24)) as [->|N]; [|apply F; lia].
  replace (2 ^ 24 * 2 ^ e) with (2 ^ 23 * 2 ^ (e + 1)) by (rewrite Z.pow_add_r by lia; change (2 ^ 24) with (2 ^ 23 * 2); change (2 ^ 1) with 2; ring). apply F; [lia|]. vm_compute; split; [discriminate|reflexivity].
Qed.
Lemma first_small : forall a, 1 <= a <= 2 ^ 24 -> first_float a = a * K.
Proof.
  intros a A. set (l := Z.log2 a). assert (L0 : 0 <= l) by apply Z.log2_nonneg. assert (L : l <= 24) by (apply (Z.log2_le_mono a (2 ^ 24)); lia). pose proof (Z.log2_spec a ltac:(lia)) as S. fold l in S.
  unfold first_float. destruct (Z.eq_dec l 24) as [E|N].
  - assert (a = 2 ^ 24) as -> by (rewrite E in S; lia). change K with (2 ^ 100). apply rnd_fixed; [lia|]. vm_compute. split; discriminate.
  - replace (a * K) with (a * 2 ^ (23 - l) * 2 ^ (77 + l)).
    + apply rnd_fixed; [lia|]. assert (E : 2 ^ 23 = 2 ^ l * 2 ^ (23 - l)) by (rewrite <- Z.pow_add_r by lia; f_equal; lia). rewrite Z.pow_succ_r in S by lia. assert (0 < 2 ^ (23 - l)) by (apply Z.pow_pos_nonneg; lia).
      change (2 ^ 24) with (2 * 2 ^ 23). rewrite E. nia.
    + rewrite <- Z.mul_assoc, <- Z.pow_add_r by lia. replace (23 - l + (77 + l)) with 100 by lia. reflexivity.
Qed.
(** The error of a number below 2^t (t - 100 as an exponent of bitcoins) is half of its last digit. *)
Lemma half_bound : forall dp a t, dp = 53 \/ dp = 24 -> 97 <= t <= 98 -> 1 <= a <= 2 ^ 24 -> a * K <= 10 ^ 8 * 2 ^ t ->
  2 * Z.abs (btcAmount dp a * 10 ^ 8 - a * K) <= 10 ^ 8 * (2 ^ (t - 24) + 2 ^ (t - 53)).
Proof.
  intros dp a t D T A B. rewrite btc_steps by lia. rewrite first_small by lia. set (x := a * K) in *. pose proof K_pos as KP. assert (X : K <= x) by (unfold x; nia).
  pose proof (second_range dp x D X) as R2. destruct (Z.eq_dec x (10 ^ 8 * 2 ^ t)) as [E|NE].
  { unfold second_float. rewrite E. replace (rnd dp (10 ^ 8 * 2 ^ t) (10 ^ 8)) with (2 ^ t).
    - replace (rnd 24 (2 ^ t) 1) with (2 ^ t).
      + rewrite (Z.mul_comm (2 ^ t)), Z.sub_diag. change (2 * Z.abs 0) with 0. apply Z.mul_nonneg_nonneg; [vm_compute; discriminate|]. apply Z.add_nonneg_nonneg; apply Z.pow_nonneg; lia.
      + assert (T' : t = 97 \/ t = 98) by lia. destruct T' as [->| ->]; reflexivity.
    - assert (T' : t = 97 \/ t = 98) by lia. destruct T' as [->| ->]; destruct D as [->| ->]; reflexivity. }
  assert (Q : x / 10 ^ 8 < 2 ^ t) by (apply Z.div_lt_upper_bound; [reflexivity|lia]).
  assert (QP : 0 < x / 10 ^ 8) by (apply Z.div_str_pos; split; [reflexivity|]; eapply Z.le_trans; [|exact X]; vm_compute; discriminate).
  assert (LQ : Z.log2 (x / 10 ^ 8) < t) by (apply Z.log2_lt_pow2; assumption).
  pose proof (rnd_half dp x (10 ^ 8) ltac:(lia) ltac:(reflexivity) (large2 dp x D X)) as H2. fold (second_float dp x) in H2.
  pose proof (rnd_form dp x (10 ^ 8) ltac:(lia) ltac:(reflexivity) (large2 dp x D X)) as (m & M & FM). fold (second_float dp x) in FM.
  pose proof (rnd_range dp x (10 ^ 8) ltac:(lia) ltac:(reflexivity) (large2 dp x D X)) as [_ RU]. fold (second_float dp x) in RU.
  pose proof (log_ge dp x (10 ^ 8) ltac:(lia) (large2 dp x D X)) as LG.
  set (l := Z.log2 (x / 10 ^ 8)) in *. set (y := second_float dp x) in *.
  assert (U2 : 2 ^ (l + 1 - dp) <= 2 ^ (t - dp)) by (apply Z.pow_le_mono_r; lia).
  assert (P24 : 0 < 2 ^ (t - 24)) by (apply Z.pow_pos_nonneg; lia). assert (P53 : 0 < 2 ^ (t - 53)) by (apply Z.pow_pos_nonneg; lia). assert (E8 : 0 < 10 ^ 8) by reflexivity.
  destruct D as [->| ->].
  - assert (YT : y <= 2 ^ t) by (eapply Z.le_trans; [exact RU|]; apply Z.pow_le_mono_r; lia).
    assert (H3 : 2 * Z.abs (rnd 24 y 1 - y) <= 2 ^ (t - 24)).
    { destruct (Z.eq_dec y (2 ^ t)) as [EY|NY].
      - rewrite EY. replace (rnd 24 (2 ^ t) 1) with (2 ^ t) by (assert (T' : t = 97 \/ t = 98) by lia; destruct T' as [->| ->]; reflexivity). rewrite Z.sub_diag. change (2 * Z.abs 0) with 0. lia.
      - pose proof (rnd_half 24 y 1 ltac:(lia) ltac:(lia) (large3 y R2)) as H. rewrite Z.mul_1_r, Z.mul_1_l, Z.div_1_r in H. eapply Z.le_trans; [exact H|]. apply Z.pow_le_mono_r; [lia|].
        assert (Z.log2 y < t) by (apply Z.log2_lt_pow2; [pose proof (Z.pow_pos_nonneg 2 73); lia|lia]). lia. }
    set (v := rnd 24 y 1) in *. clearbody v y x l. set (p1 := 2 ^ (t - 24)) in *. set (p2 := 2 ^ (t - 53)) in *. set (p3 := 2 ^ (l + 1 - 53)) in *. clearbody p1 p2 p3.
    change (10 ^ 8) with 100000000 in *. lia.
  - assert (V : rnd 24 y 1 = y) by (rewrite FM; apply rnd_fixed; [lia|]; change (24 - 1) with 23 in M; change (2 ^ 24) with (2 * 2 ^ 23); exact M).
    rewrite V. clearbody y x l. set (p1 := 2 ^ (t - 24)) in *. set (p2 := 2 ^ (t - 53)) in *. set (p3 := 2 ^ (l + 1 - 24)) in *. clearbody p1 p2 p3. change (10 ^ 8) with 100000000 in *. lia.
Qed.
Lemma small_exact : forall dp a, dp = 53 \/ dp = 24 -> 0 <= a <= 12500000 -> nearest_satoshi a (btcAmount dp a).
Proof.
  intros dp a D A. unfold nearest_satoshi. fold K. destruct (Z.eq_dec a 0) as [->|N]; [vm_compute; reflexivity|].
  pose proof (half_bound dp a 97 D ltac:(lia) ltac:(change (2 ^ 24) with 16777216; lia)) as H. eapply Z.le_lt_trans; [apply H|reflexivity].
  change (10 ^ 8 * 2 ^ 97) with (12500000 * K). pose proof K_pos. nia.
Qed.
Lemma small_unique : forall dp a b, dp = 53 \/ dp = 24 -> 0 <= a <= 12500000 -> 0 <= b <= 12500000 -> btcAmount dp a = btcAmount dp b -> a = b.
Proof.
  intros dp a b D A B E. pose proof (small_exact dp a D A) as X. pose proof (small_exact dp b D B) as Y. unfold nearest_satoshi in *. rewrite <- E in Y. fold K in *. pose proof K_pos.
  set (v := btcAmount dp a * 10 ^ 8) in *. set (k := K) in *. clearbody v k. nia.
Qed.
(** ** Above it *)
Lemma second_eighth : forall dp x, dp = 53 \/ dp = 24 -> 12500000 * K <= x -> 2 ^ 97 <= second_float dp x.
Proof.
  intros dp x D X. assert (X1 : K <= x) by (pose proof K_pos; lia). destruct (rnd_range dp x (10 ^ 8) ltac:(lia) ltac:(reflexivity) (large2 dp x D X1)) as [H _]. eapply Z.le_trans; [|exact H].
  apply Z.pow_le_mono_r; [lia|]. apply Z.log2_le_pow2; [|]. 
  - apply Z.div_str_pos; split; [reflexivity|]. eapply Z.le_trans; [|exact X]. vm_compute; discriminate.
  - apply Z.div_le_lower_bound; [reflexivity|]. eapply Z.le_trans; [|exact X]. vm_compute. discriminate.
Qed.
Lemma grid : forall dp a, dp = 53 \/ dp = 24 -> 12500000 <= a <= 2 ^ 24 -> exists k, btcAmount dp a = k * 2 ^ 74.
Proof.
  intros dp a D A. rewrite btc_steps by lia. rewrite first_small by lia. pose proof K_pos as KP. assert (Y := second_eighth dp (a * K) D ltac:(nia)). set (y := second_float dp (a * K)) in *. clearbody y.
  assert (Y73 : 2 ^ 73 <= y) by (eapply Z.le_trans; [|exact Y]; vm_compute; discriminate).
  destruct (rnd_form 24 y 1 ltac:(lia) ltac:(lia) (large3 y Y73)) as (m & _ & ->). rewrite Z.div_1_r. assert (L : 97 <= Z.log2 y) by (apply Z.log2_le_pow2; [pose proof (Z.pow_pos_nonneg 2 73); lia|exact Y]).
  exists (m * 2 ^ (Z.log2 y + 1 - 24 - 74)). rewrite <- Z.mul_assoc, <- Z.pow_add_r by lia. do 2 f_equal. lia.
Qed.
Lemma five_middle : forall dp a, dp = 53 \/ dp = 24 -> 12500000 <= a <= 2 ^ 24 - 4 -> exists b, a <= b < a + 4 /\ btcAmount dp b = btcAmount dp (b + 1).
Proof.
  intros dp a D A. change (2 ^ 24) with 16777216 in A.
  destruct (Z.eq_dec (btcAmount dp a) (btcAmount dp (a + 1))) as [E|N0]; [exists a; split; [lia|exact E]|].
  destruct (Z.eq_dec (btcAmount dp (a + 1)) (btcAmount dp (a + 2))) as [E|N1]; [exists (a + 1); split; [lia|]; replace (a + 1 + 1) with (a + 2) by lia; exact E|].
  destruct (Z.eq_dec (btcAmount dp (a + 2)) (btcAmount dp (a + 3))) as [E|N2]; [exists (a + 2); split; [lia|]; replace (a + 2 + 1) with (a + 3) by lia; exact E|].
  destruct (Z.eq_dec (btcAmount dp (a + 3)) (btcAmount dp (a + 4))) as [E|N3]; [exists (a + 3); split; [lia|]; replace (a + 3 + 1) with (a + 4) by lia; exact E|].
  exfalso. pose proof (monotone dp a (a + 1) D ltac:(lia)) as M0. pose proof (monotone dp (a + 1) (a + 2) D ltac:(lia)) as M1. pose proof (monotone dp (a + 2) (a + 3) D ltac:(lia)) as M2. pose proof (monotone dp (a + 3) (a + 4) D ltac:(lia)) as M3.
  destruct (grid dp a D ltac:(change (2 ^ 24) with 16777216; lia)) as (k0 & K0). destruct (grid dp (a + 1) D ltac:(change (2 ^ 24) with 16777216; lia)) as (k1 & K1). destruct (grid dp (a + 2) D ltac:(change (2 ^ 24) with 16777216; lia)) as (k2 & K2).
  destruct (grid dp (a + 3) D ltac:(change (2 ^ 24) with 16777216; lia)) as (k3 & K3). destruct (grid dp (a + 4) D ltac:(change (2 ^ 24) with 16777216; lia)) as (k4 & K4).
  assert (LE : forall b, b <= 16777216 -> b * K <= 10 ^ 8 * 2 ^ 98) by (intros b Hb; change (10 ^ 8 * 2 ^ 98) with (25000000 * K); pose proof K_pos; nia).
  pose proof (half_bound dp a 98 D ltac:(lia) ltac:(change (2 ^ 24) with 16777216; lia) (LE a ltac:(lia))) as H0.
  pose proof (half_bound dp (a + 4) 98 D ltac:(lia) ltac:(change (2 ^ 24) with 16777216; lia) (LE (a + 4) ltac:(lia))) as H4.
  rewrite K0, K1, K2, K3, K4 in *. assert (0 < 2 ^ 74) by reflexivity.
  assert (k0 + 1 <= k1) by nia. assert (k1 + 1 <= k2) by nia. assert (k2 + 1 <= k3) by nia. assert (k3 + 1 <= k4) by nia.
  clear - H0 H4 H1 H2 H3 H5. change K with (2 ^ 26 * 2 ^ 74) in *. change (2 ^ (98 - 24)) with (2 ^ 74) in *. change (2 ^ (98 - 53)) with (2 ^ 45) in *.
  assert (F : 2 ^ 45 <= 2 ^ 74) by (vm_compute; discriminate). 
  assert (P : 2 ^ 74 = 536870912 * 2 ^ 45) by reflexivity. rewrite P in *. set (g := 2 ^ 45) in *. assert (0 < g) by reflexivity. clearbody g. change (10 ^ 8) with 100000000 in *. change (2 ^ 26) with 67108864 in *. nia.
Qed.
Lemma five : forall dp a, dp = 53 \/ dp = 24 -> 12500000 <= a -> exists b, a <= b < a + 4 /\ btcAmount dp b = btcAmount dp (b + 1).
Proof.
  intros dp a D A. destruct (Z.le_gt_cases a (2 ^ 24 - 4)) as [B|B]; [apply five_middle; auto; lia|]. change (2 ^ 24) with 16777216 in B.
  destruct (Z.le_gt_cases a 16777216) as [C|C]; [exists 16777216; split; [lia|]; destruct D as [->| ->]; vm_compute; reflexivity|].
  destruct (Z.le_gt_cases (2 ^ 25) (a + 1)) as [E|E].
  - destruct (neighbour dp (a + 1) E) as (b & [-> | ->] & H).
    + exists a. split; [lia|]. replace (a + 1 - 1) with a in H by lia. exact H.
    + exists (a + 1). split; [lia|]. symmetry. exact H.
  - change (2 ^ 25) with 33554432 in E. destruct (Z.le_gt_cases 33554429 a) as [G|G]; [exists 33554432; split; [lia|]; destruct D as [->| ->]; vm_compute; reflexivity|].
    set (q := (a + 3) / 4). pose proof (Z.div_mod (a + 3) 4 ltac:(lia)) as DM. pose proof (Z.mod_pos_bound (a + 3) 4 ltac:(lia)) as R. fold q in DM.
    exists (4 * q). split; [lia|]. apply same_first; [lia|lia|].
    assert (F : 2 ^ 23 * 2 ^ 1 <= 4 * q < 2 ^ 24 * 2 ^ 1) by (change (2 ^ 23 * 2 ^ 1) with 16777216; change (2 ^ 24 * 2 ^ 1) with 33554432; lia).
    assert (F' : 2 ^ 23 * 2 ^ 1 <= 4 * q + 1 < 2 ^ 24 * 2 ^ 1) by (change (2 ^ 23 * 2 ^ 1) with 16777216 in *; change (2 ^ 24 * 2 ^ 1) with 33554432 in *; lia).
    rewrite (first_at (4 * q) 1 ltac:(lia) F), (first_at (4 * q + 1) 1 ltac:(lia) F'). change (2 ^ 1) with 2.
    replace ((4 * q) / 2) with (2 * q) by (apply Z.div_unique with 0; lia). replace ((4 * q) mod 2) with 0 by (apply Z.mod_unique with (2 * q); lia).
    replace ((4 * q + 1) / 2) with (2 * q) by (apply Z.div_unique with 1; lia). replace ((4 * q + 1) mod 2) with 1 by (apply Z.mod_unique with (2 * q); lia).
    rewrite Z.even_mul. reflexivity.
Qed.
