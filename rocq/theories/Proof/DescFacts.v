(** The descriptor checksum: the code computes BIP380's function, and a change confined to four
    consecutive characters always changes the result. *)
From Coq Require Import Lia.
From Verif Require Import Base.Bytes Base.BytesFacts Model.Script Model.Descriptor Spec.Descriptor Proof.BechCode Proof.WitnessFacts.
Open Scope Z_scope.

Definition pk (t i g : Z) : Z := if Z.testbit t i then g else 0.
Definition G (t : Z) : Z :=
  Z.lxor (Z.lxor (Z.lxor (Z.lxor (pk t 0 0xf5dee51989) (pk t 1 0xa9fdca3312)) (pk t 2 0x1bab10e32d)) (pk t 3 0x3706b1677a)) (pk t 4 0x644d626ffd).
Definition sh (c : Z) : Z := Z.shiftl (Z.land c 0x7ffffffff) 5.
Definition L (c : Z) : Z := Z.lxor (sh c) (G (Z.shiftr c 35)).

Lemma step_L : forall c v, Spec.Descriptor.polymod_step c v = Z.lxor (L c) v.
Proof.
  intros c v. unfold Spec.Descriptor.polymod_step, L, G. cbv zeta. cbn [fold_left].
  change (nth (Z.to_nat 0) GENERATOR 0) with 0xf5dee51989. change (nth (Z.to_nat 1) GENERATOR 0) with 0xa9fdca3312.
  change (nth (Z.to_nat 2) GENERATOR 0) with 0x1bab10e32d. change (nth (Z.to_nat 3) GENERATOR 0) with 0x3706b1677a.
  change (nth (Z.to_nat 4) GENERATOR 0) with 0x644d626ffd. unfold pk, sh.
  rewrite !Z.lxor_assoc. f_equal. rewrite (Z.lxor_comm v). rewrite !Z.lxor_assoc. reflexivity.
Qed.
Lemma pk_lin : forall a b i g, pk (Z.lxor a b) i g = Z.lxor (pk a i g) (pk b i g).
Proof.
  intros a b i g. unfold pk. rewrite Z.lxor_spec.
  destruct (Z.testbit a i), (Z.testbit b i); cbn [xorb]; rewrite ?Z.lxor_0_r, ?Z.lxor_0_l, ?Z.lxor_nilpotent; auto.
Qed.
Lemma L_lin : forall a b, L (Z.lxor a b) = Z.lxor (L a) (L b).
Proof.
  intros a b. unfold L. rewrite (lxor_swap (sh a)). f_equal.
  - unfold sh. rewrite <- Z.shiftl_lxor. f_equal. apply Z.bits_inj'. intros n Hn.
    rewrite !Z.lxor_spec, !Z.land_spec, Z.lxor_spec.
    destruct (Z.testbit a n), (Z.testbit b n), (Z.testbit 34359738367 n); reflexivity.
  - rewrite Z.shiftr_lxor. unfold G. rewrite !pk_lin.
    generalize (Z.shiftr a 35), (Z.shiftr b 35). intros u w.
    rewrite (lxor_swap (pk u 0 _)), (lxor_swap (Z.lxor _ _) (Z.lxor _ _) (pk u 2 _)),
      (lxor_swap (Z.lxor _ _) (Z.lxor _ _) (pk u 3 _)), (lxor_swap (Z.lxor _ _) (Z.lxor _ _) (pk u 4 _)). reflexivity.
Qed.
Definition v40 (x : Z) : Prop := 0 <= x < 2^40.
Lemma lxor_v40 : forall a b, v40 a -> v40 b -> v40 (Z.lxor a b).
Proof. intros. apply lxor_bound; auto; lia. Qed.
Lemma pk_v40 : forall t i g, v40 g -> v40 (pk t i g).
Proof. intros t i g H. unfold pk, v40 in *. destruct (Z.testbit t i); lia. Qed.
Lemma sh_eq : forall c, sh c = (c mod 2^35) * 32.
Proof. intros. unfold sh. rewrite Z.shiftl_mul_pow2 by lia. change 34359738367 with (Z.ones 35). rewrite Z.land_ones by lia. lia. Qed.
Lemma sh_v40 : forall c, v40 (sh c).
Proof. intros. rewrite sh_eq. unfold v40. pose proof (Z.mod_pos_bound c (2^35) ltac:(lia)). lia. Qed.
Lemma L_v40 : forall c, v40 (L c).
Proof. intros. unfold L, G. repeat apply lxor_v40; auto using sh_v40; apply pk_v40; unfold v40; lia. Qed.
Lemma step_v40 : forall c v, 0 <= v < 32 -> v40 (Spec.Descriptor.polymod_step c v).
Proof. intros. rewrite step_L. apply lxor_v40; [apply L_v40|unfold v40; lia]. Qed.

(** The step is injective. *)
Lemma L_kernel : forall x, v40 x -> L x = 0 -> x = 0.
Proof.
  intros x Hx E. unfold L in E. apply Z.lxor_eq in E.
  assert (T : 0 <= Z.shiftr x 35 < 32).
  { unfold v40 in Hx. rewrite Z.shiftr_div_pow2 by lia. split; [apply Z.div_pos; lia|apply Z.div_lt_upper_bound; lia]. }
  assert (M : G (Z.shiftr x 35) mod 32 = 0).
  { rewrite <- E, sh_eq. apply Z.mod_mul. lia. }
  assert (Z.shiftr x 35 = 0) as Z0.
  { pose proof (zrange_sweep 32 (fun t => (negb (G t mod 32 =? 0)) || (t =? 0)) ltac:(vm_compute; reflexivity) _ T) as W.
    cbv beta in W. apply orb_prop in W as [W|W]; [|lia]. rewrite M in W. discriminate. }
  rewrite Z0 in E. change (G 0) with 0 in E. rewrite sh_eq in E.
  rewrite Z.shiftr_div_pow2 in Z0 by lia. unfold v40 in Hx.
  pose proof (Z.div_mod x (2^35) ltac:(lia)). lia.
Qed.
Definition pm (c : Z) (l : list Z) : Z := fold_left Spec.Descriptor.polymod_step l c.
Definition sym_ok (v : Z) : Prop := 0 <= v < 32.
Lemma lxor_ne : forall a b, a <> b <-> Z.lxor a b <> 0.
Proof. intros a b; split; intros H E; apply H; [apply Z.lxor_eq; auto|subst; apply Z.lxor_nilpotent]. Qed.
Lemma pm_v40 : forall l c, v40 c -> Forall sym_ok l -> v40 (pm c l).
Proof.
  induction l as [|v l IH]; intros c Hc H; cbn [pm fold_left]; auto. inversion H; subst. apply IH; auto.
  apply step_v40; auto.
Qed.
Lemma pm_same : forall l c c', v40 c -> v40 c' -> Forall sym_ok l -> c <> c' -> pm c l <> pm c' l.
Proof.
  induction l as [|v l IH]; intros c c' Hc Hc' H N; cbn [pm fold_left]; auto. inversion H; subst.
  apply IH; auto using step_v40. rewrite !step_L. intros E.
  apply (f_equal (fun z => Z.lxor z v)) in E. rewrite !Z.lxor_assoc, !Z.lxor_nilpotent, !Z.lxor_0_r in E.
  apply N, Z.lxor_eq, L_kernel; [apply lxor_v40; auto|]. rewrite L_lin, E. apply Z.lxor_nilpotent.
Qed.
(** Within eight steps nothing is reduced. *)
Lemma L_small : forall d, 0 <= d < 2^35 -> L d = d * 32.
Proof.
  intros d H. unfold L. rewrite sh_eq, Z.mod_small, Z.shiftr_div_pow2, Z.div_small by lia.
  change (G 0) with 0. apply Z.lxor_0_r.
Qed.
Lemma diff_step : forall c c' v v', Z.lxor (Spec.Descriptor.polymod_step c v) (Spec.Descriptor.polymod_step c' v') = Z.lxor (L (Z.lxor c c')) (Z.lxor v v').
Proof. intros. rewrite !step_L, lxor_swap, L_lin. reflexivity. Qed.
Lemma window_grow : forall l l' c c' k, length l = length l' -> (k + length l <= 8)%nat ->
  Forall sym_ok l -> Forall sym_ok l' -> v40 c -> v40 c' ->
  0 < Z.lxor c c' < 32 ^ Z.of_nat k -> pm c l <> pm c' l'.
Proof.
  induction l as [|v l IH]; intros [|v' l'] c c' k E K H H' Hc Hc' D; try discriminate; cbn [pm fold_left].
  - apply lxor_ne. lia.
  - cbn [length] in *. inversion H; inversion H'; subst.
    apply (IH l' _ _ (S k)); auto using step_v40; try lia.
    rewrite diff_step. assert (0 <= Z.lxor v v' < 2^5) by (apply lxor_bound; auto; lia).
    assert (32 ^ Z.of_nat k <= 2^35).
    { change 32 with (2^5). rewrite <- Z.pow_mul_r by lia. apply Z.pow_le_mono_r; lia. }
    rewrite L_small by lia. change (Z.lxor c c' * 32) with (Z.lxor c c' * 2^5). rewrite lxor_add by lia.
    rewrite Nat2Z.inj_succ, Z.pow_succ_r by lia. lia.
Qed.
Lemma window : forall l l' c, length l = length l' -> (length l <= 8)%nat -> Forall sym_ok l -> Forall sym_ok l' -> v40 c ->
  l <> l' -> pm c l <> pm c l'.
Proof.
  induction l as [|v l IH]; intros [|v' l'] c E K H H' Hc N; try discriminate; [congruence|].
  cbn [length pm fold_left] in *. inversion H; inversion H'; subst.
  destruct (Z.eq_dec v v') as [->|NV].
  - apply IH; auto using step_v40; try lia. congruence.
  - apply (window_grow l l' _ _ 1); auto using step_v40; try lia. rewrite !step_L.
    rewrite lxor_swap, Z.lxor_nilpotent, Z.lxor_0_l. change (32 ^ Z.of_nat 1) with (2^5).
    assert (0 <= Z.lxor v v' < 2^5) by (apply lxor_bound; auto; lia). apply lxor_ne in NV. lia.
Qed.

(** The symbols of a descriptor. *)
Definition pos_ok (v : Z) : Prop := 0 <= v < 96.
Lemma land31 : forall v, Z.land v 31 = v mod 32.
Proof. intros. change 31 with (Z.ones 5). apply Z.land_ones. lia. Qed.
Lemma shr5 : forall v, Z.shiftr v 5 = v / 32.
Proof. intros. apply Z.shiftr_div_pow2. lia. Qed.
Lemma list3_ind : forall (P : list Z -> Prop), P [] -> (forall a, P [a]) -> (forall a b, P [a; b]) ->
  (forall a b c t, P t -> P (a :: b :: c :: t)) -> forall l, P l.
Proof.
  intros P H0 H1 H2 H3. fix IH 1. intros [|a [|b [|c t]]]; [exact H0|apply H1|apply H2|apply H3, IH].
Qed.
Lemma expand_app3 : forall n u v, length u = (3 * n)%nat -> descsum_expand (u ++ v) = descsum_expand u ++ descsum_expand v.
Proof.
  induction n as [|n IH]; intros u v H.
  - destruct u; [reflexivity|discriminate].
  - destruct u as [|a [|b [|c t]]]; cbn [length] in H; try lia. cbn [app descsum_expand]. rewrite IH by lia. reflexivity.
Qed.
Lemma expand_ok : forall vs, Forall pos_ok vs -> Forall sym_ok (descsum_expand vs).
Proof.
  induction vs as [|a|a b|a b c t IH] using list3_ind; intros H; cbn [descsum_expand app]; rewrite ?land31, ?shr5.
  - constructor.
  - inversion H; subst. unfold pos_ok in *. repeat constructor; unfold sym_ok; dlia.
  - inversion H as [|x y Ha H1]; subst. inversion H1 as [|x y Hb]; subst. unfold pos_ok in *. clear H H1. repeat constructor; unfold sym_ok; dlia.
  - inversion H as [|x y Ha H1]; subst. inversion H1 as [|x y Hb H2]; subst. inversion H2 as [|x y Hc H3]; subst.
    repeat apply Forall_cons; auto; unfold pos_ok, sym_ok in *; clear - Ha Hb Hc; dlia.
Qed.
Lemma expand_len : forall vs ws, length vs = length ws -> length (descsum_expand vs) = length (descsum_expand ws).
Proof.
  induction vs as [|a|a b|a b c t IH] using list3_ind; intros [|x [|y [|z ws]]] H; cbn [length] in H; try lia; cbn [descsum_expand app length]; auto.
  rewrite (IH ws) by lia. reflexivity.
Qed.
Lemma expand_len6 : forall vs, (length vs <= 6)%nat -> (length (descsum_expand vs) <= 8)%nat.
Proof.
  intros [|a [|b [|c [|d [|e [|f [|g t]]]]]]] H; cbn in *; lia.
Qed.
Lemma expand_inj : forall vs ws, Forall pos_ok vs -> Forall pos_ok ws -> length vs = length ws ->
  descsum_expand vs = descsum_expand ws -> vs = ws.
Proof.
  induction vs as [|a|a b|a b c t IH] using list3_ind; intros [|x [|y [|z ws]]] H H' E S; try discriminate; cbn [descsum_expand app] in S;
    rewrite ?land31, ?shr5 in S; auto.
  - inversion H; inversion H'; subst. unfold pos_ok in *. f_equal.
    pose proof (f_equal (hd 0) S) as S1. pose proof (f_equal (fun l => nth 1 l 0) S) as S2. cbn [hd nth] in *. clear - S1 S2 H2 H6. dlia.
  - inversion H as [|? ? Ha H1]; subst. inversion H1 as [|? ? Hb _]; subst.
    inversion H' as [|? ? Hx H1']; subst. inversion H1' as [|? ? Hy _]; subst.
    pose proof (f_equal (hd 0) S) as S1. pose proof (f_equal (fun l => nth 1 l 0) S) as S2. pose proof (f_equal (fun l => nth 2 l 0) S) as S3.
    cbn [hd nth] in *. unfold pos_ok in *. clear - Ha Hb Hx Hy S1 S2 S3.
    assert (a = x /\ b = y) as [-> ->] by (split; dlia). reflexivity.
  - inversion H as [|? ? Ha H1]; subst. inversion H1 as [|? ? Hb H2]; subst. inversion H2 as [|? ? Hc H3]; subst.
    inversion H' as [|? ? Hx H1']; subst. inversion H1' as [|? ? Hy H2']; subst. inversion H2' as [|? ? Hz H3']; subst.
    pose proof (f_equal (hd 0) S) as S1. pose proof (f_equal (fun l => nth 1 l 0) S) as S2. pose proof (f_equal (fun l => nth 2 l 0) S) as S3.
    pose proof (f_equal (fun l => nth 3 l 0) S) as S4. pose proof (f_equal (skipn 4) S) as S5.
    cbn [hd nth skipn app length] in *. rewrite (IH ws) by (auto; lia). unfold pos_ok in *. clear - Ha Hb Hc Hx Hy Hz S1 S2 S3 S4.
    assert (a = x /\ b = y /\ c = z) as (-> & -> & ->) by (split; [|split]; dlia). reflexivity.
Qed.
Lemma positions_app : forall a b, positions (a ++ b) =
  match positions a, positions b with Some u, Some v => Some (u ++ v) | _, _ => None end.
Proof.
  induction a as [|c a IH]; intros b; cbn [positions app].
  - destruct (positions b); auto.
  - rewrite IH. destruct (index_of c _), (positions a), (positions b); auto.
Qed.
Lemma positions_ok : forall s vs, positions s = Some vs -> Forall pos_ok vs /\ length vs = length s.
Proof.
  induction s as [|c s IH]; intros vs H; cbn [positions] in H.
  - injection H as <-. split; auto.
  - destruct (index_of c (chars INPUT_CHARSET)) as [v|] eqn:V; try discriminate.
    destruct (positions s) as [u|] eqn:U; try discriminate. injection H as <-. destruct (IH u eq_refl). split; cbn [length]; auto.
    constructor; auto. apply index_of_some in V as [V _]. unfold pos_ok. change (len (chars INPUT_CHARSET)) with 95 in V. lia.
Qed.
Lemma positions_inj : forall s t vs, positions s = Some vs -> positions t = Some vs -> s = t.
Proof.
  induction s as [|c s IH]; intros [|d t] vs H H'; cbn [positions] in *.
  - auto.
  - injection H as <-. destruct (index_of d _), (positions t); discriminate.
  - injection H' as <-. destruct (index_of c _), (positions s); discriminate.
  - destruct (index_of c (chars INPUT_CHARSET)) as [v|] eqn:V; try discriminate. destruct (positions s) as [u|] eqn:U; try discriminate.
    destruct (index_of d (chars INPUT_CHARSET)) as [v'|] eqn:V'; try discriminate. destruct (positions t) as [u'|] eqn:U'; try discriminate.
    injection H as <-. injection H' as -> ->. apply index_of_some in V as [_ <-]. apply index_of_some in V' as [_ <-].
    f_equal. eauto.
Qed.

(** Splitting at multiples of three around the changed window. *)
Lemma split_window : forall a x b : list Z, (length x <= 4)%nat -> exists n a1 a2 b1 b2,
  a = a1 ++ a2 /\ length a1 = (3 * n)%nat /\ b = b1 ++ b2 /\ (length (a2 ++ x ++ b1) <= 6)%nat /\
  (b2 = [] \/ exists m, length (a2 ++ x ++ b1) = (3 * m)%nat).
Proof.
  intros a x b Hx. set (n := (length a / 3)%nat). pose proof (Nat.div_mod (length a) 3 ltac:(lia)) as E.
  pose proof (Nat.mod_upper_bound (length a) 3 ltac:(lia)) as B. fold n in E.
  set (r := (length a mod 3 + length x)%nat). set (k := ((3 - r mod 3) mod 3)%nat).
  assert (K : exists m, (r + k = 3 * m /\ r + k <= 6)%nat).
  { unfold k. clearbody n. assert (r <= 6)%nat by (unfold r; lia). clearbody r.
    destruct r as [|[|[|[|[|[|[|r]]]]]]]; cbn; try (exists 0%nat; lia); try (exists 1%nat; lia); try (exists 2%nat; lia); lia. }
  destruct K as (m & K1 & K2).
  exists n, (firstn (3 * n) a), (skipn (3 * n) a), (firstn k b), (skipn k b). rewrite !firstn_skipn.
  split; auto. split. { rewrite firstn_length. lia. } split; auto.
  rewrite !app_length, skipn_length, firstn_length. split.
  - unfold r in *. lia.
  - destruct (Nat.le_gt_cases k (length b)).
    + right. exists m. unfold r in *. lia.
    + left. apply skipn_all2. lia.
Qed.
Definition word (checksum : Z) : list Z :=
  map (fun i => nth (Z.to_nat (Z.land (Z.shiftr checksum (5 * (7 - i))) 31)) (chars CHECKSUM_CHARSET) 0) [0; 1; 2; 3; 4; 5; 6; 7].
Lemma check_char_inj : forall v w, 0 <= v < 32 -> 0 <= w < 32 ->
  nth (Z.to_nat v) (chars CHECKSUM_CHARSET) 0 = nth (Z.to_nat w) (chars CHECKSUM_CHARSET) 0 -> v = w.
Proof.
  intros v w Hv Hw E.
  pose proof (zrange_sweep 32 (fun v => forallb (fun w => negb (nth (Z.to_nat v) (chars CHECKSUM_CHARSET) 0 =? nth (Z.to_nat w) (chars CHECKSUM_CHARSET) 0) || (v =? w)) (zrange 32))
    ltac:(vm_compute; reflexivity) v Hv) as S. cbv beta in S.
  pose proof (zrange_sweep 32 _ S w Hw) as S'. cbv beta in S'. rewrite E, Z.eqb_refl in S'. cbn [negb orb] in S'. lia.
Qed.
Lemma word_inj : forall c d, v40 c -> v40 d -> word c = word d -> c = d.
Proof.
  intros c d Hc Hd E. unfold word in E. cbn [map] in E.
  assert (D : forall i, 0 <= i < 8 -> (c / 2^(5*(7-i))) mod 32 = (d / 2^(5*(7-i))) mod 32).
  { intros i Hi. pose proof (f_equal (fun l => nth (Z.to_nat i) l 0) E) as Q. cbv beta in Q.
    assert (J : i = 0 \/ i = 1 \/ i = 2 \/ i = 3 \/ i = 4 \/ i = 5 \/ i = 6 \/ i = 7) by lia.
    rewrite <- !Z.shiftr_div_pow2 by lia. rewrite <- !land31.
    destruct J as [->|[->|[->|[->|[->|[->|[->| ->]]]]]]]; apply check_char_inj in Q; auto; rewrite land31; apply Z.mod_pos_bound; lia. }
  unfold v40 in *.
  pose proof (D 0 ltac:(lia)) as D0. pose proof (D 1 ltac:(lia)) as D1. pose proof (D 2 ltac:(lia)) as D2. pose proof (D 3 ltac:(lia)) as D3.
  pose proof (D 4 ltac:(lia)) as D4. pose proof (D 5 ltac:(lia)) as D5. pose proof (D 6 ltac:(lia)) as D6. pose proof (D 7 ltac:(lia)) as D7.
  clear E D.
  assert (ST : forall k, 0 <= k -> c / 2^(k+5) = d / 2^(k+5) -> (c / 2^k) mod 32 = (d / 2^k) mod 32 -> c / 2^k = d / 2^k).
  { intros k Hk A B. rewrite Z.pow_add_r, <- !Z.div_div in A by lia. change (2^5) with 32 in A. clear - A B. dlia. }
  assert (c / 2^35 = d / 2^35).
  { change (2 ^ (5 * (7 - 0))) with (2^35) in D0. rewrite !Z.mod_small in D0 by (split; [apply Z.div_pos|apply Z.div_lt_upper_bound]; lia). auto. }
  assert (c / 2^0 = d / 2^0) as R; [|rewrite !Z.div_1_r in R; auto].
  do 7 (apply ST; [lia| |assumption]). assumption.
Qed.
