(** Detection of up to four wrong symbols among 89. *)
From Coq Require Import Lia.
From Verif Require Import Base.Bytes Base.BytesFacts Model.Bech32 Spec.Bech32 Proof.BechCode.
Open Scope Z_scope.

(** A set of positive numbers, for the sweep. *)
Inductive tree : Set := Leaf | Node (here : bool) (l r : tree).
Fixpoint add (p : positive) (t : tree) : tree :=
  match p, t with
  | xH, Leaf => Node true Leaf Leaf
  | xH, Node _ l r => Node true l r
  | xO q, Leaf => Node false (add q Leaf) Leaf
  | xO q, Node h l r => Node h (add q l) r
  | xI q, Leaf => Node false Leaf (add q Leaf)
  | xI q, Node h l r => Node h l (add q r)
  end.
Fixpoint mem (p : positive) (t : tree) : bool :=
  match t with
  | Leaf => false
  | Node h l r => match p with xH => h | xO q => mem q l | xI q => mem q r end
  end.
Definition memz (x : Z) (t : tree) : bool := match x with Zpos p => mem p t | _ => true end.
Definition addz (t : tree) (x : Z) : tree := match x with Zpos p => add p t | _ => t end.
Lemma mem_add : forall p t, mem p (add p t) = true.
Proof. induction p as [p IH|p IH|]; intros [|h l r]; cbn [add mem]; auto. Qed.
Lemma mem_keep : forall p q t, mem p t = true -> mem p (add q t) = true.
Proof.
  intros p q; revert p. induction q as [q IH|q IH|]; intros [p|p|] [|h l r] H; cbn [add mem] in *; auto; try discriminate.
Qed.
Lemma memz_build : forall l t x, In x l \/ memz x t = true -> memz x (fold_left addz l t) = true.
Proof.
  induction l as [|y l IH]; intros t x H; cbn [fold_left].
  - destruct H as [[]|H]; auto.
  - apply IH. destruct H as [[->|H]|H]; auto; right.
    + destruct x as [|p|p]; cbn [memz addz]; auto. apply mem_add.
    + destruct y as [|q|q]; cbn [addz]; auto. destruct x as [|p|p]; cbn [memz] in *; auto. apply mem_keep; auto.
Qed.

(** Additive maps agree if they agree on powers of two. *)
Definition additive (f : Z -> Z) : Prop := forall a b, f (Z.lxor a b) = Z.lxor (f a) (f b).
Lemma additive_0 : forall f, additive f -> f 0 = 0.
Proof. intros f H. specialize (H 0 0). rewrite Z.lxor_0_l, Z.lxor_nilpotent in H. auto. Qed.
Lemma split_top : forall n x, 0 <= n -> 0 <= x < 2^(n+1) -> x = Z.lxor (x mod 2^n) (if Z.testbit x n then 2^n else 0).
Proof.
  intros n x Hn Hx. apply Z.bits_inj'. intros i Hi. rewrite Z.lxor_spec. destruct (Z.ltb_spec i n).
  - rewrite Z.mod_pow2_bits_low by lia. replace (Z.testbit (if Z.testbit x n then 2^n else 0) i) with false.
    + rewrite xorb_false_r. reflexivity.
    + destruct (Z.testbit x n); rewrite ?Z.pow2_bits_false by lia; rewrite ?Z.bits_0; reflexivity.
  - rewrite Z.mod_pow2_bits_high by lia. rewrite xorb_false_l. destruct (Z.eq_dec i n) as [->|].
    + destruct (Z.testbit x n); rewrite ?Z.pow2_bits_true, ?Z.bits_0 by lia; reflexivity.
    + assert (Z.testbit x i = false) as ->.
      { rewrite <- (Z.mod_small x (2^(n+1))) by lia. apply Z.mod_pow2_bits_high. lia. }
      destruct (Z.testbit x n); rewrite ?Z.pow2_bits_false by lia; rewrite ?Z.bits_0; reflexivity.
Qed.
Lemma additive_ext : forall f g, additive f -> additive g -> forall n, (forall i, 0 <= i < Z.of_nat n -> f (2^i) = g (2^i)) ->
  forall x, 0 <= x < 2^Z.of_nat n -> f x = g x.
Proof.
  intros f g Hf Hg. induction n as [|n IH]; intros H x Hx.
  - change (2 ^ Z.of_nat 0) with 1 in Hx. replace x with 0 by lia. rewrite !additive_0; auto.
  - rewrite Nat2Z.inj_succ in *. unfold Z.succ in *. rewrite (split_top (Z.of_nat n) x) by lia. rewrite Hf, Hg. f_equal.
    + apply IH; [intros; apply H; lia|]. apply Z.mod_pos_bound. apply Z.pow_pos_nonneg; lia.
    + destruct (Z.testbit x (Z.of_nat n)); [apply H; lia|rewrite !additive_0; auto].
Qed.
Lemma land_additive : forall m, additive (fun x => Z.land x m).
Proof. intros m a b. apply Z.bits_inj'. intros n Hn. rewrite !Z.lxor_spec, !Z.land_spec, Z.lxor_spec. destruct (Z.testbit a n), (Z.testbit b n), (Z.testbit m n); reflexivity. Qed.

(** Multiplying every symbol by a generator of the field. *)
Definition tops (x : Z) : Z := Z.land (Z.shiftr x 4) 34636833.
Definition scale (x : Z) : Z := Z.lxor (Z.shiftl (Z.land x 519552495) 1) (Z.lxor (tops x) (Z.shiftl (tops x) 3)).
Lemma tops_additive : additive tops.
Proof. intros a b. unfold tops. rewrite Z.shiftr_lxor. apply land_additive. Qed.
Lemma scale_additive : additive scale.
Proof.
  intros a b. unfold scale. rewrite tops_additive. pose proof (land_additive 519552495 a b) as E. cbv beta in E. rewrite E.
  rewrite !Z.shiftl_lxor. rewrite (lxor_swap (tops a) (tops b)). apply lxor_swap.
Qed.
Lemma scale_step : forall x, v30 x -> scale (polymod_step x) = polymod_step (scale x).
Proof.
  intros x Hx. apply (additive_ext (fun x => scale (polymod_step x)) (fun x => polymod_step (scale x))) with (n := 30%nat); auto.
  - intros a b. rewrite step_lin. apply scale_additive.
  - intros a b. rewrite scale_additive. apply step_lin.
  - intros i Hi. apply Z.eqb_eq.
    apply (zrange_sweep 30 (fun i => scale (polymod_step (2^i)) =? polymod_step (scale (2^i)))); [vm_compute; reflexivity|auto].
Qed.
Lemma scale_value : forall v, value_ok v -> value_ok (scale v) /\ (scale v = 0 -> v = 0).
Proof.
  intros v H. unfold value_ok in *.
  assert (S : forallb (fun v => (0 <=? scale v) && (scale v <? 32) && (negb (scale v =? 0) || (v =? 0))) (zrange 32) = true) by (vm_compute; reflexivity).
  pose proof (zrange_sweep 32 _ S v ltac:(lia)) as Q. cbv beta in Q. apply andb_prop in Q as [Q1 Q2]. apply andb_prop in Q1 as [Q0 Q1].
  apply Z.leb_le in Q0. apply Z.ltb_lt in Q1. split; [lia|]. intros E. rewrite E in Q2. change (0 =? 0) with true in Q2. apply Z.eqb_eq; auto.
Qed.
Fixpoint scales (k : nat) (v : Z) : Z := match k with O => v | S k => scale (scales k v) end.
Lemma to_one : forall v, 0 < v < 32 -> exists k, scales k v = 1.
Proof.
  intros v H. assert (S : forallb (fun v => (v =? 0) || existsb (fun k => scales k v =? 1) (seq 0 31)) (zrange 32) = true) by (vm_compute; reflexivity).
  pose proof (zrange_sweep 32 _ S v ltac:(lia)) as Q. cbv beta in Q. apply orb_prop in Q as [Q|Q]; [apply Z.eqb_eq in Q; lia|].
  apply existsb_exists in Q as (k & _ & Q). exists k. apply Z.eqb_eq; auto.
Qed.

(** The checksum of an error pattern, last symbol first. *)
Fixpoint effect (e : list Z) : Z := match e with [] => 0 | v :: t => Z.lxor v (polymod_step (effect t)) end.
Lemma effect_v30 : forall e, Forall value_ok e -> v30 (effect e).
Proof. induction 1; cbn [effect]; [unfold v30; lia|]. apply lxor_v30; [apply v30_of_value; auto|apply step_v30]. Qed.
Lemma effect_scale : forall e, Forall value_ok e -> effect (map scale e) = scale (effect e).
Proof.
  induction 1 as [|v e H HF IH]; [reflexivity|]. cbn [effect map]. rewrite IH, scale_additive, scale_step; [reflexivity|].
  apply effect_v30; auto.
Qed.
Lemma scales_values : forall k e, Forall value_ok e -> Forall value_ok (map (scales k) e) /\ (forall v, value_ok v -> value_ok (scales k v) /\ (scales k v = 0 -> v = 0)) /\ scales k 0 = 0.
Proof.
  induction k as [|k IH]; intros e H; cbn [scales].
  - rewrite map_id. repeat split; auto; apply H0.
  - destruct (IH e H) as (A & B & C). split; [|split].
    + rewrite <- (map_map (scales k) scale). apply Forall_map. eapply Forall_impl; [|exact A]. intros v Hv. apply scale_value; auto.
    + intros v Hv. destruct (B v Hv) as [B1 B2]. destruct (scale_value _ B1). auto.
    + rewrite C. reflexivity.
Qed.
Lemma effect_scales : forall k e, Forall value_ok e -> effect e = 0 -> effect (map (scales k) e) = 0.
Proof.
  induction k as [|k IH]; intros e H E; cbn [scales]; [rewrite map_id; auto|].
  rewrite <- (map_map (scales k) scale). rewrite effect_scale by (apply scales_values; auto). rewrite IH by auto. reflexivity.
Qed.

(** Contributions of one wrong symbol, 1 to 88 places before the last wrong one;
    the first entry of each row is that of the value 1. *)
Definition nonzero_values : list Z := map (fun v => v + 1) (zrange 31).
Definition next_row (row : list Z) : list Z := map polymod_step row.
Fixpoint rows (n : nat) (row : list Z) : list (list Z) :=
  match n with O => [] | S k => row :: rows k (next_row row) end.
Definition table : list (list Z) := Eval vm_compute in rows 88 (next_row nonzero_values).
(** The last wrong symbol, alone or with another one. *)
Definition lasts : list Z := nonzero_values ++ flat_map (fun s => map (Z.lxor s) nonzero_values) (concat table).
Definition last_set : tree := fold_left addz lasts Leaf.

Definition rest_ok (t : tree) (rest : list (list Z)) (s : Z) : bool :=
  forallb (fun row => negb (memz (Z.lxor s (hd 0 row)) t)) rest.
Fixpoint pairs_ok (t : tree) (l : list (list Z)) : bool :=
  match l with
  | [] => true
  | row :: rest => negb (memz (hd 0 row) t) && forallb (rest_ok t rest) row && pairs_ok t rest
  end.
Lemma sweep : pairs_ok last_set table = true.
Proof. vm_cast_no_check (eq_refl true). Qed.

(** Contributions picked from a table, at most one per row; the last one is a first entry. *)
Inductive picks : list (list Z) -> list Z -> Prop :=
| picks_nil : forall l, picks l []
| picks_skip : forall row l xs, picks l xs -> picks (row :: l) xs
| picks_one : forall row l, picks (row :: l) [hd 0 row]
| picks_take : forall row l x y xs, In x row -> picks l (y :: xs) -> picks (row :: l) (x :: y :: xs).

Lemma picks_hd : forall l x, picks l [x] -> In x (map (hd 0) l).
Proof. induction l as [|row l IH]; intros x H; inversion H; subst; cbn [map]; [right; auto|left; auto]. Qed.
Lemma picks_1 : forall t l x, pairs_ok t l = true -> picks l [x] -> memz x t = false.
Proof.
  intros t l; induction l as [|row l IH]; intros x P H; inversion H; subst; cbn [pairs_ok] in P;
    apply andb_prop in P as [P1 P3]; apply andb_prop in P1 as [P1 P2]; auto.
  apply negb_true_iff in P1. auto.
Qed.
Lemma picks_2 : forall t l x y, pairs_ok t l = true -> picks l [x; y] -> memz (Z.lxor x y) t = false.
Proof.
  intros t l; induction l as [|row l IH]; intros x y P H; inversion H; subst; cbn [pairs_ok] in P;
    apply andb_prop in P as [P1 P3]; apply andb_prop in P1 as [P1 P2]; auto.
  rewrite forallb_forall in P2. specialize (P2 x ltac:(auto)). unfold rest_ok in P2. rewrite forallb_forall in P2.
  apply picks_hd in H6. apply in_map_iff in H6 as (row' & <- & Hr). specialize (P2 _ Hr). apply negb_true_iff in P2. auto.
Qed.
Lemma picks_3 : forall t l x y z, pairs_ok t l = true -> picks l [x; y; z] -> In x (concat l) /\ memz (Z.lxor y z) t = false.
Proof.
  intros t l; induction l as [|row l IH]; intros x y z P H; inversion H; subst; cbn [pairs_ok] in P;
    apply andb_prop in P as [P1 P3]; cbn [concat]; rewrite in_app_iff.
  - destruct (IH x y z P3 H3). auto.
  - split; auto. eapply picks_2; eauto.
Qed.

(** The table's rows are the shifted values. *)
Fixpoint steps (n : nat) (x : Z) : Z := match n with O => x | S k => polymod_step (steps k x) end.
Lemma steps_0 : forall n, steps n 0 = 0.
Proof. induction n as [|n IH]; cbn [steps]; [|rewrite IH]; reflexivity. Qed.
Lemma steps_lin : forall n a b, steps n (Z.lxor a b) = Z.lxor (steps n a) (steps n b).
Proof. induction n as [|n IH]; intros; cbn [steps]; auto. rewrite IH. apply step_lin. Qed.
Lemma steps_S : forall n x, steps (S n) x = steps n (polymod_step x).
Proof. induction n as [|n IH]; intros; [reflexivity|]. cbn [steps] in *. rewrite IH. reflexivity. Qed.
Definition xors (l : list Z) : Z := fold_right Z.lxor 0 l.
Definition weight (e : list Z) : nat := length (filter (fun v => negb (v =? 0)) e).
(** The last nonzero value of a pattern is 1. *)
Fixpoint tops_out (e : list Z) : Prop :=
  match e with [] => True | v :: t => (weight t = 0%nat -> v <> 0 -> v = 1) /\ tops_out t end.

Lemma effect_zero : forall e, Forall value_ok e -> weight e = 0%nat -> effect e = 0.
Proof.
  induction 1 as [|v e H HF IH]; intros W; [reflexivity|]. unfold weight in *. cbn [filter] in W. destruct (Z.eqb_spec v 0) as [->|]; cbn [negb] in W; [|discriminate].
  cbn [effect]. rewrite IH by auto. reflexivity.
Qed.
Lemma in_values : forall v, value_ok v -> v <> 0 -> In v nonzero_values.
Proof.
  intros v H N. unfold nonzero_values. apply in_map_iff. exists (v - 1). split; [lia|]. unfold value_ok in H.
  unfold zrange. apply in_map_iff. exists (Z.to_nat (v - 1)). split; [lia|]. apply in_seq. lia.
Qed.
Lemma picks_of : forall e n j, Forall value_ok e -> (length e <= n)%nat -> tops_out e ->
  exists xs, picks (rows n (map (steps j) nonzero_values)) xs /\ length xs = weight e /\ steps j (effect e) = xors xs.
Proof.
  induction e as [|v e IH]; intros n j HF HL HT.
  - exists []. split; [constructor|]. split; [reflexivity|]. apply steps_0.
  - inversion HF as [|? ? Hv HF']; subst. destruct HT as [T1 T2]. destruct n as [|n]; [cbn [length] in HL; lia|]. cbn [length] in HL.
    destruct (IH n (S j) HF' ltac:(lia) T2) as (xs & P & L & E).
    cbn [rows]. replace (next_row (map (steps j) nonzero_values)) with (map (steps (S j)) nonzero_values)
      by (unfold next_row; rewrite map_map; reflexivity).
    cbn [effect]. rewrite steps_lin, <- steps_S, E. unfold weight in *. cbn [filter].
    destruct (Z.eqb_spec v 0) as [->|NV]; cbn [negb].
    + rewrite steps_0, Z.lxor_0_l. exists xs. split; [apply picks_skip; auto|]. auto.
    + exists (steps j v :: xs). cbn [length]. split; [|split; [congruence|reflexivity]].
      assert (I : In (steps j v) (map (steps j) nonzero_values)) by (apply in_map, in_values; auto).
      destruct xs as [|y xs].
      * cbn [length] in L. rewrite (T1 (eq_sym L) NV). replace (steps j 1) with (hd 0 (map (steps j) nonzero_values)) by reflexivity. apply picks_one.
      * apply picks_take; auto.
Qed.
Lemma table_eq : table = rows 88 (map (steps 1) nonzero_values).
Proof. vm_compute. reflexivity. Qed.

Lemma effect_small : forall v e, Forall value_ok (v :: e) -> v <> 0 -> (length e <= 88)%nat -> (weight e <= 3)%nat -> tops_out e -> effect (v :: e) <> 0.
Proof.
  intros v e HF NV HL HW HT E. inversion HF as [|? ? Hv HF']; subst.
  destruct (picks_of e 88 1 HF' HL HT) as (xs & P & L & X). rewrite <- table_eq in P.
  cbn [effect] in E. change (polymod_step (effect e)) with (steps 1 (effect e)) in E. rewrite X in E. apply Z.lxor_eq in E.
  pose proof (in_values v Hv NV) as IV.
  assert (M : forall x, In x lasts -> memz x last_set = true) by (intros x Hx; apply memz_build; auto).
  destruct xs as [|x [|y [|z [|]]]]; cbn [length] in L; try lia; cbn [xors fold_right] in E; rewrite ?Z.lxor_0_r in E.
  - lia.
  - pose proof (picks_1 _ _ _ sweep P) as Q. rewrite M in Q; [discriminate|]. subst x. apply in_app_iff; auto.
  - pose proof (picks_2 _ _ _ _ sweep P) as Q. rewrite <- E in Q. rewrite M in Q; [discriminate|]. apply in_app_iff; auto.
  - destruct (picks_3 _ _ _ _ _ sweep P) as [I Q]. assert (E2 : Z.lxor y z = Z.lxor x v).
    { rewrite E. rewrite <- Z.lxor_assoc, Z.lxor_nilpotent, Z.lxor_0_l. reflexivity. }
    rewrite E2 in Q. rewrite M in Q; [discriminate|]. apply in_app_iff. right. apply in_flat_map. exists x. split; auto. apply in_map; auto.
Qed.

Lemma weight_scales : forall k e, Forall value_ok e -> weight (map (scales k) e) = weight e.
Proof.
  intros k e H. destruct (scales_values k e H) as (_ & B & C). induction H as [|v e Hv HF IH]; [reflexivity|].
  unfold weight in *. cbn [map filter]. destruct (B v Hv) as [_ B2]. destruct (Z.eqb_spec v 0) as [->|N].
  - rewrite C. cbn [Z.eqb negb]. apply IH.
  - destruct (Z.eqb_spec (scales k v) 0); [exfalso; auto|]. cbn [negb length]. f_equal. apply IH.
Qed.
(** Some scaling makes the last nonzero value 1. *)
Lemma tops_out_scales : forall e, Forall value_ok e -> exists k, tops_out (map (scales k) e).
Proof.
  induction e as [|v e IH]; intros HF; [exists O; exact I|]. inversion HF as [|? ? Hv HF']; subst.
  destruct (Nat.eq_dec (weight e) 0) as [W|W].
  - assert (Z0 : forall k, tops_out (map (scales k) e)).
    { intros k. clear IH HF v Hv. destruct (scales_values k e HF') as (_ & _ & C). induction HF' as [|x e Hx HF IH]; [exact I|].
      cbn [map tops_out]. unfold weight in W. cbn [filter] in W. destruct (Z.eqb_spec x 0) as [->|]; cbn [negb] in W; [|discriminate].
      split; [intros _ N; congruence|apply IH; auto]. }
    destruct (Z.eq_dec v 0) as [->|N].
    + exists O. split; [|apply Z0]. cbn [scales]. congruence.
    + destruct (to_one v) as [k K]; [unfold value_ok in Hv; lia|]. exists k. split; [auto|apply Z0].
  - destruct (IH HF') as [k K]. exists k. split; [|exact K]. rewrite weight_scales by auto. congruence.
Qed.

(** Any nonzero pattern of at most four errors in 89 symbols is seen. *)
Lemma effect_detects : forall e, Forall value_ok e -> (length e <= 89)%nat -> (weight e <= 4)%nat -> effect e = 0 -> weight e = 0%nat.
Proof.
  induction e as [|v e IH]; intros HF HL HW E; [reflexivity|]. inversion HF as [|? ? Hv HF']; subst. cbn [length] in HL.
  destruct (Z.eq_dec v 0) as [->|N].
  - unfold weight in *. cbn [filter negb Z.eqb] in *. apply IH; auto; try lia. cbn [effect] in E. rewrite Z.lxor_0_l in E.
    apply step_kernel; auto. apply effect_v30; auto.
  - exfalso. destruct (tops_out_scales (v :: e) HF) as [k K]. destruct (scales_values k (v :: e) HF) as (A & B & _).
    pose proof (effect_scales k (v :: e) HF E) as Z0. cbn [map] in *. destruct K as [_ K]. revert Z0. apply effect_small; auto.
    + intros Q. apply N. apply B; auto.
    + rewrite map_length. lia.
    + rewrite weight_scales by auto. unfold weight in *. cbn [filter] in HW. destruct (Z.eqb_spec v 0); [lia|]. cbn [negb length] in HW. lia.
Qed.

(** In terms of two sequences of values. *)
Lemma effect_app : forall e c, fold_left step e c = Z.lxor (effect (rev e)) (steps (length e) c).
Proof.
  induction e as [|v e IH] using rev_ind; intros c; [cbn [rev effect fold_left length steps]; rewrite Z.lxor_0_l; reflexivity|].
  rewrite fold_left_app, rev_unit, app_length, Nat.add_comm. cbn [fold_left effect length Nat.add steps]. rewrite IH. unfold step. rewrite step_lin.
  rewrite Z.lxor_assoc, (Z.lxor_comm _ v). rewrite <- Z.lxor_assoc. rewrite (Z.lxor_comm _ v). reflexivity.
Qed.
Definition xor_lists (a b : list Z) : list Z := map (fun p => Z.lxor (fst p) (snd p)) (combine a b).
Lemma fold_xor : forall a b c d, length a = length b ->
  fold_left step (xor_lists a b) (Z.lxor c d) = Z.lxor (fold_left step a c) (fold_left step b d).
Proof.
  induction a as [|x a IH]; intros [|y b] c d H; try discriminate; [reflexivity|]. cbn [xor_lists combine map fold_left fst snd].
  rewrite <- IH by (cbn [length] in H; lia). unfold xor_lists. f_equal. unfold step. rewrite step_lin. apply lxor_swap.
Qed.
Lemma weight_differences : forall a b, length a = length b -> Z.of_nat (weight (xor_lists a b)) = differences a b.
Proof.
  induction a as [|x a IH]; intros [|y b] H; try discriminate; [reflexivity|]. cbn [length] in H. unfold weight, xor_lists in *. cbn [combine map filter fst snd differences].
  rewrite <- IH by lia. destruct (Z.eqb_spec x y) as [->|N].
  - rewrite Z.lxor_nilpotent. cbn [Z.eqb negb]. lia.
  - destruct (Z.eqb_spec (Z.lxor x y) 0) as [E|]; [apply Z.lxor_eq in E; contradiction|]. cbn [negb length]. lia.
Qed.
Lemma differences_0 : forall a b, length a = length b -> differences a b = 0 -> a = b.
Proof.
  assert (P : forall a b, 0 <= differences a b).
  { induction a as [|x a IH]; intros [|y b]; cbn [differences]; try lia. specialize (IH b). destruct (x =? y); lia. }
  induction a as [|x a IH]; intros [|y b] H E; try discriminate; auto. cbn [differences] in E. specialize (P a b).
  destruct (Z.eqb_spec x y) as [->|]; [|lia]. f_equal. apply IH; auto; lia.
Qed.
Lemma weight_rev : forall e, weight (rev e) = weight e.
Proof.
  induction e as [|v e IH]; [reflexivity|]. cbn [rev]. unfold weight in *. rewrite filter_app, app_length, IH. cbn [filter].
  destruct (v =? 0); cbn [negb length]; lia.
Qed.
Lemma checks_detect : forall c a b, Forall value_ok a -> Forall value_ok b -> length a = length b -> len a <= 89 ->
  fold_left step a c = fold_left step b c -> differences a b <= 4 -> a = b.
Proof.
  intros c a b Ha Hb HL HN HE HD. apply differences_0; auto. rewrite <- weight_differences in * by auto.
  rewrite <- weight_rev. rewrite (effect_detects (rev (xor_lists a b))); auto.
  - apply Forall_rev. unfold xor_lists. apply Forall_map. apply Forall_forall. intros [x y] I. cbn [fst snd].
    pose proof (in_combine_l _ _ _ _ I) as I1. pose proof (in_combine_r _ _ _ _ I) as I2. rewrite Forall_forall in Ha, Hb.
    unfold value_ok in *. change 32 with (2^5). apply lxor_bound; [lia|apply Ha; auto|apply Hb; auto].
  - rewrite rev_length. unfold xor_lists. rewrite map_length, combine_length. unfold len in HN. lia.
  - rewrite weight_rev. lia.
  - pose proof (fold_xor a b c c HL) as F. rewrite HE, !Z.lxor_nilpotent, effect_app, steps_0, Z.lxor_0_r in F. auto.
Qed.
