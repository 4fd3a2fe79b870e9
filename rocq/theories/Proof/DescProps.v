(** The checksum code against BIP380. *)
From Coq Require Import Lia.
From Verif Require Import Base.Bytes Base.BytesFacts Model.Script Model.Descriptor Spec.Descriptor Proof.WitnessFacts Proof.BechCode Proof.DescFacts.
Open Scope Z_scope.

Lemma land_pow : forall t i, 0 <= i -> negb (Z.land t (2^i) =? 0) = Z.testbit t i.
Proof.
  intros t i Hi. destruct (Z.testbit t i) eqn:E.
  - apply negb_true_iff, Z.eqb_neq. intros Q. apply (f_equal (fun z => Z.testbit z i)) in Q.
    rewrite Z.land_spec, Z.pow2_bits_true, Z.bits_0, E in Q by lia. discriminate.
  - apply negb_false_iff, Z.eqb_eq. apply Z.bits_inj'. intros n Hn. rewrite Z.land_spec, Z.bits_0.
    destruct (Z.eq_dec n i) as [->|]; [rewrite E; reflexivity|]. rewrite Z.pow2_bits_false by lia. apply andb_false_r.
Qed.
Lemma pick_if : forall (b : bool) c g, (if b then Z.lxor c g else c) = Z.lxor c (if b then g else 0).
Proof. intros [] c g; rewrite ?Z.lxor_0_r; auto. Qed.
Lemma PolyMod_step : forall c v, v40 c -> PolyMod c v = Spec.Descriptor.polymod_step c v.
Proof.
  intros c v Hc. rewrite step_L. unfold PolyMod, L, G. cbv zeta.
  assert (T : u8 (Z.shiftr c 35) = Z.shiftr c 35).
  { unfold v40 in Hc. apply u8_id. rewrite Z.shiftr_div_pow2 by lia. split; [apply Z.div_pos; lia|apply Z.div_lt_upper_bound; lia]. }
  assert (S : u64 (Z.shiftl (Z.land c 34359738367) 5) = sh c).
  { fold (sh c). apply u64_id. pose proof (sh_v40 c). unfold v40 in *. lia. }
  rewrite T, S. generalize (Z.shiftr c 35). intros t.
  pose proof (land_pow t 0 ltac:(lia)) as P0. pose proof (land_pow t 1 ltac:(lia)) as P1. pose proof (land_pow t 2 ltac:(lia)) as P2.
  pose proof (land_pow t 3 ltac:(lia)) as P3. pose proof (land_pow t 4 ltac:(lia)) as P4.
  change (2^0) with 1 in P0. change (2^1) with 2 in P1. change (2^2) with 4 in P2. change (2^3) with 8 in P3. change (2^4) with 16 in P4.
  rewrite P0, P1, P2, P3, P4, !pick_if. unfold pk. rewrite !Z.lxor_assoc. f_equal. rewrite (Z.lxor_comm v), !Z.lxor_assoc. reflexivity.
Qed.

Definition fin (r : Z * Z * Z) : Z := let '(c, cls, n) := r in if 0 <? n then PolyMod c cls else c.
(** The alphabet with its terminator, as strchr sees it. *)
Fixpoint positions' (s : list Z) : option (list Z) :=
  match s with
  | [] => Some []
  | ch :: t => match strchr DESC_INPUT ch, positions' t with Some v, Some vs => Some (v :: vs) | _, _ => None end
  end.
Lemma strchr_pos : forall ch v, strchr DESC_INPUT ch = Some v -> pos_ok v.
Proof. intros ch v H. apply index_of_some in H as [H _]. change (len (DESC_INPUT ++ [0])) with 96 in H. exact H. Qed.
Lemma positions'_ok : forall s vs, positions' s = Some vs -> Forall pos_ok vs.
Proof.
  induction s as [|c s IH]; intros vs H; cbn [positions'] in H.
  - injection H as <-. auto.
  - destruct (strchr DESC_INPUT c) as [v|] eqn:V; try discriminate. destruct (positions' s); try discriminate. injection H as <-.
    constructor; auto. eapply strchr_pos; eauto.
Qed.
Lemma mod_sym : forall v, sym_ok (Z.land v 31).
Proof. intros. rewrite land31. apply Z.mod_pos_bound. lia. Qed.
Ltac grp := unfold pos_ok, sym_ok in *; rewrite ?shr5; dlia.
Lemma expand_cons3 : forall a b c t, descsum_expand (a :: b :: c :: t) =
  [Z.land a 31; Z.land b 31; Z.land c 31; Z.shiftr a 5 * 9 + Z.shiftr b 5 * 3 + Z.shiftr c 5] ++ descsum_expand t.
Proof. reflexivity. Qed.
Lemma pm_app : forall l m c, pm c (l ++ m) = pm (pm c l) m.
Proof. intros. apply fold_left_app. Qed.
Local Opaque PolyMod Spec.Descriptor.polymod_step strchr.
Lemma loop_expand : forall s c, v40 c ->
  option_map fin (desc_loop s c 0 0) = option_map (fun vs => pm c (descsum_expand vs)) (positions' s).
Proof.
  assert (V : forall c v, sym_ok v -> v40 (Spec.Descriptor.polymod_step c v)) by (intros; apply step_v40; auto).
  induction s as [|x|x y|x y z t IH] using list3_ind; intros c Hc; cbn [desc_loop positions'].
  - reflexivity.
  - destruct (strchr DESC_INPUT x) as [p|] eqn:P; [|reflexivity]. apply strchr_pos in P. change (0 + 1 =? 3) with false. cbv iota zeta.
    cbn [desc_loop option_map fin descsum_expand pm fold_left]. change (0 <? 0 + 1) with true. cbv iota.
    rewrite (PolyMod_step c) by auto. rewrite PolyMod_step by auto using mod_sym. do 2 f_equal; ring.
  - destruct (strchr DESC_INPUT x) as [p|] eqn:P; [|reflexivity]. apply strchr_pos in P. change (0 + 1 =? 3) with false. cbv iota zeta.
    destruct (strchr DESC_INPUT y) as [q|] eqn:Q; [|reflexivity]. apply strchr_pos in Q. change (0 + 1 + 1 =? 3) with false. cbv iota.
    cbn [option_map fin descsum_expand pm fold_left]. change (0 <? 0 + 1 + 1) with true. cbv iota.
    rewrite (PolyMod_step c) by auto. rewrite (PolyMod_step (Spec.Descriptor.polymod_step c _)) by auto using mod_sym.
    rewrite PolyMod_step by auto using mod_sym. do 2 f_equal; ring.
  - destruct (strchr DESC_INPUT x) as [p|] eqn:P; [|reflexivity]. apply strchr_pos in P. change (0 + 1 =? 3) with false. cbv iota zeta.
    destruct (strchr DESC_INPUT y) as [q|] eqn:Q; [|reflexivity]. apply strchr_pos in Q. change (0 + 1 + 1 =? 3) with false. cbv iota.
    destruct (strchr DESC_INPUT z) as [r|] eqn:R; [|reflexivity]. apply strchr_pos in R. change (0 + 1 + 1 + 1 =? 3) with true. cbv iota.
    rewrite (PolyMod_step c) by auto. rewrite (PolyMod_step (Spec.Descriptor.polymod_step c _)) by auto using mod_sym.
    rewrite (PolyMod_step (Spec.Descriptor.polymod_step (Spec.Descriptor.polymod_step c _) _)) by auto using mod_sym.
    rewrite PolyMod_step by auto using mod_sym.
    assert (CE : ((0 * 3 + Z.shiftr p 5) * 3 + Z.shiftr q 5) * 3 + Z.shiftr r 5 = Z.shiftr p 5 * 9 + Z.shiftr q 5 * 3 + Z.shiftr r 5) by ring.
    rewrite CE. clear CE.
    assert (CB : sym_ok (Z.shiftr p 5 * 9 + Z.shiftr q 5 * 3 + Z.shiftr r 5)) by (clear - P Q R; grp).
    rewrite IH by (apply V; exact CB). clear.
    destruct (positions' t) as [u|]; [|reflexivity]. cbn [option_map]. rewrite expand_cons3, pm_app. reflexivity.
Qed.
Local Transparent PolyMod Spec.Descriptor.polymod_step strchr.
Lemma strchr_nonzero : forall ch, ch <> 0 -> strchr DESC_INPUT ch = index_of ch (chars INPUT_CHARSET).
Proof.
  intros ch H. unfold strchr. change DESC_INPUT with (chars INPUT_CHARSET). generalize (chars INPUT_CHARSET). intros l.
  induction l as [|x l IH]; cbn [index_of app].
  - replace (0 =? ch) with false by lia. reflexivity.
  - rewrite IH. reflexivity.
Qed.
Lemma positions_nonzero : forall s, ~ In 0 s -> positions' s = positions s.
Proof.
  induction s as [|c s IH]; intros H; cbn [positions positions']; [reflexivity|].
  rewrite strchr_nonzero by (intros ->; apply H; left; auto). rewrite IH by (intros Q; apply H; right; auto). reflexivity.
Qed.
Lemma iter_zeros : forall n c, v40 c -> Nat.iter n (fun c => PolyMod c 0) c = pm c (repeat 0 n).
Proof.
  intros n c Hc. assert (E : forall n, Nat.iter n (fun c => PolyMod c 0) c = pm c (repeat 0 n) /\ v40 (pm c (repeat 0 n))).
  { induction n0 as [|k [IH1 IH2]]; [split; auto|].
    replace (repeat 0 (S k)) with (repeat 0 k ++ [0]) by (symmetry; apply repeat_cons).
    change (Nat.iter (S k) (fun c => PolyMod c 0) c) with (PolyMod (Nat.iter k (fun c => PolyMod c 0) c) 0).
    rewrite IH1, pm_app, PolyMod_step by auto. split; [reflexivity|].
    apply step_v40. lia. }
  apply E.
Qed.
Lemma write_front : forall a l b, length a = length b -> write_at (a ++ l) 0 b = Ok (b ++ l).
Proof.
  intros a l b H. exact (write_at_app b [] a l H).
Qed.
Definition desc_result (o : option (list Z)) (n : nat) : list Z * Z :=
  match o with Some w => (w ++ zeros (n - 8), 8) | None => (zeros n, 0) end.
Lemma checksum_eq : forall s n, (8 <= n)%nat ->
  descriptorChecksum s n = Ok (desc_result (option_map (fun vs => word (Z.lxor (descsum_polymod (descsum_expand vs ++ repeat 0 8)) 1)) (positions' s)) n).
Proof.
  intros s n Hn. unfold descriptorChecksum. cbv zeta. replace (Z.of_nat n <? 8) with false by lia.
  assert (V1 : v40 1) by (unfold v40; lia).
  pose proof (loop_expand s 1 V1) as E. pose proof (positions'_ok s) as PO.
  destruct (desc_loop s 1 0 0) as [[[c cls] k]|]; destruct (positions' s) as [vs|]; cbn [option_map] in E; try discriminate.
  2:{ reflexivity. }
  injection E as E. specialize (PO vs eq_refl). apply expand_ok in PO. cbn [fin] in E. rewrite E.
  rewrite iter_zeros by (apply pm_v40; auto).
  replace (pm (pm 1 (descsum_expand vs)) (repeat 0 8)) with (descsum_polymod (descsum_expand vs ++ repeat 0 8))
    by (unfold pm, descsum_polymod; apply fold_left_app).
  cbn [option_map desc_result]. generalize (descsum_polymod (descsum_expand vs ++ repeat 0 8)). intros d.
  replace (zeros n) with (zeros 8 ++ zeros (n - 8)) by (unfold zeros; rewrite <- repeat_app; f_equal; lia).
  rewrite write_front by reflexivity. cbn [bind]. rewrite write_front by reflexivity. reflexivity.
Qed.
Lemma descsum_word : forall s, descsum s = option_map (fun vs => word (Z.lxor (descsum_polymod (descsum_expand vs ++ repeat 0 8)) 1)) (positions s).
Proof. intros. unfold descsum. destruct (positions s); reflexivity. Qed.
Lemma checksum_bip380 : forall s n, ~ In 0 s -> (8 <= n)%nat -> descriptorChecksum s n = Ok (desc_result (descsum s) n).
Proof. intros. rewrite checksum_eq, positions_nonzero, descsum_word by auto. reflexivity. Qed.
Lemma checksum_short : forall s n, (n < 8)%nat -> descriptorChecksum s n = Ok (zeros n, 0).
Proof. intros. unfold descriptorChecksum. replace (Z.of_nat n <? 8) with true by lia. reflexivity. Qed.
Lemma cstr_nonzero : forall s, ~ In 0 s -> cstr s = s.
Proof.
  induction s as [|c s IH]; intros H; cbn [cstr]; auto. replace (c =? 0) with false.
  - f_equal. apply IH. intros Q. apply H. right; auto.
  - symmetry. apply Z.eqb_neq. intros ->. apply H. left; auto.
Qed.
Lemma cstr_app : forall s t, ~ In 0 s -> cstr (s ++ 0 :: t) = s.
Proof.
  induction s as [|c s IH]; intros t H; cbn [cstr app]; auto. replace (c =? 0) with false.
  - f_equal. apply IH. intros Q. apply H. right; auto.
  - symmetry. apply Z.eqb_neq. intros ->. apply H. left; auto.
Qed.
Lemma word_nonzero : forall c, ~ In 0 (word c).
Proof.
  intros c H. unfold word in H. apply in_map_iff in H as (i & E & _).
  assert (R : sym_ok (Z.land (Z.shiftr c (5 * (7 - i))) 31)) by apply mod_sym. revert E R.
  generalize (Z.land (Z.shiftr c (5 * (7 - i))) 31). intros v E R.
  pose proof (zrange_sweep 32 (fun v => negb (nth (Z.to_nat v) (chars CHECKSUM_CHARSET) 0 =? 0)) ltac:(vm_compute; reflexivity) v R) as Q.
  cbv beta in Q. rewrite E in Q. discriminate.
Qed.
Lemma string_bip380 : forall s, ~ In 0 s ->
  descriptorChecksum_String s = Ok (match descsum s with Some w => w | None => [] end).
Proof.
  intros s H. unfold descriptorChecksum_String. rewrite cstr_nonzero, checksum_bip380 by (auto; lia).
  rewrite descsum_word. cbn [bind]. destruct (positions s); cbn [option_map desc_result fst]; [|reflexivity].
  change (zeros (10 - 8)) with [0; 0]. rewrite cstr_app by apply word_nonzero. reflexivity.
Qed.
Lemma descsum_len : forall s w, descsum s = Some w -> length w = 8%nat.
Proof. intros s w H. rewrite descsum_word in H. destruct (positions s); cbn [option_map] in H; try discriminate.
  apply (f_equal (fun o => match o with Some l => length l | None => 0%nat end)) in H. rewrite <- H. reflexivity. Qed.
Lemma positions_foreign : forall s ch, In ch s -> ~ In ch (chars INPUT_CHARSET) -> positions s = None.
Proof.
  induction s as [|c s IH]; intros ch I N; [destruct I|]. destruct I as [->|H]; cbn [positions].
  - destruct (index_of ch (chars INPUT_CHARSET)) as [v|] eqn:V; auto. apply index_of_some in V as [V1 V2]. exfalso. apply N. rewrite <- V2.
    apply nth_In. unfold len in V1. lia.
  - rewrite (IH ch) by auto. destruct (index_of c _); auto.
Qed.
Lemma foreign_refused : forall s n ch, ~ In 0 s -> In ch s -> ~ In ch (chars INPUT_CHARSET) ->
  descriptorChecksum s n = Ok (zeros n, 0) /\ descriptorChecksum_String s = Ok [].
Proof.
  intros s n ch Z I N. assert (D : descsum s = None) by (rewrite descsum_word, (positions_foreign s ch) by auto; reflexivity). split.
  - destruct (Nat.lt_ge_cases n 8); [apply checksum_short; auto|]. rewrite checksum_bip380, D by auto. reflexivity.
  - rewrite string_bip380, D by auto. reflexivity.
Qed.
Lemma positions_some : forall s, (forall ch, In ch s -> In ch (chars INPUT_CHARSET)) -> exists vs, positions s = Some vs.
Proof.
  induction s as [|c s IH]; intros H; cbn [positions]; [eexists; reflexivity|].
  destruct IH as [vs ->]; [intros; apply H; right; auto|].
  destruct (index_of c (chars INPUT_CHARSET)) as [v|] eqn:V; [eexists; reflexivity|].
  apply index_of_none in V. exfalso. apply V, H. left; auto.
Qed.
Lemma positions'_some : forall s, (forall ch, In ch s -> ch = 0 \/ In ch (chars INPUT_CHARSET)) -> exists vs, positions' s = Some vs.
Proof.
  induction s as [|c s IH]; intros H; cbn [positions']; [eexists; reflexivity|].
  destruct IH as [vs ->]; [intros; apply H; right; auto|].
  destruct (strchr DESC_INPUT c) as [v|] eqn:V; [eexists; reflexivity|].
  apply index_of_none in V. exfalso. apply V. apply in_or_app. destruct (H c) as [->|I]; [left; auto|right; left; auto|left; exact I].
Qed.
Lemma zero_accepted : forall s n, (8 <= n)%nat -> (forall ch, In ch s -> ch = 0 \/ In ch (chars INPUT_CHARSET)) ->
  exists w, descriptorChecksum s n = Ok (w ++ zeros (n - 8), 8) /\ length w = 8%nat.
Proof.
  intros s n Hn H. destruct (positions'_some s H) as [vs E]. rewrite checksum_eq, E by auto. cbn [option_map desc_result].
  eexists. split; reflexivity.
Qed.

Lemma descsum_pm : forall l, descsum_polymod l = pm 1 l.
Proof. reflexivity. Qed.
Lemma detects : forall a x y b w, length x = length y -> (length x <= 4)%nat -> x <> y ->
  descsum (a ++ x ++ b) = Some w -> descsum (a ++ y ++ b) <> Some w.
Proof.
  intros a x y b w E K N D D'. rewrite descsum_word in D, D'.
  rewrite !positions_app in D, D'. destruct (positions a) as [pa|] eqn:A; [|discriminate].
  destruct (positions b) as [pb|] eqn:B; [|destruct (positions x); discriminate].
  destruct (positions x) as [px|] eqn:X; [|discriminate]. destruct (positions y) as [py|] eqn:Y; [|discriminate].
  apply positions_ok in A as HA. apply positions_ok in B as HB. apply positions_ok in X as HX. apply positions_ok in Y as HY.
  destruct HA as [HA _], HB as [HB _], HX as [HX LX], HY as [HY LY]. cbn [option_map] in *.
  assert (NP : px <> py) by (intros ->; apply N; eapply positions_inj; eauto).
  assert (LP : length px = length py) by lia.
  apply (f_equal (fun o => match o with Some l => l | None => [] end)) in D, D'. rewrite <- D' in D.
  assert (KP : (length px <= 4)%nat) by lia. clear D' A B X Y N E LX LY K x y a b w.
  destruct (split_window pa px pb KP) as (n & a1 & a2 & b1 & b2 & EA & L1 & EB & L6 & LB). subst pa pb.
  rewrite !Forall_app in HA, HB. destruct HA as [HA1 HA2], HB as [HB1 HB2].
  assert (EX : forall p, length p = length px -> descsum_expand ((a1 ++ a2) ++ p ++ b1 ++ b2) = descsum_expand a1 ++ descsum_expand (a2 ++ p ++ b1) ++ descsum_expand b2).
  { intros p Hp. rewrite <- app_assoc, (expand_app3 n) by auto. f_equal. replace (a2 ++ p ++ b1 ++ b2) with ((a2 ++ p ++ b1) ++ b2) by (rewrite !app_assoc; auto).
    destruct LB as [->|[m Hm]].
    - cbn [descsum_expand]. rewrite !app_nil_r. auto.
    - apply (expand_app3 m). rewrite <- Hm, !app_length. lia. }
  rewrite !EX in D by auto. clear EX.
  set (X := descsum_expand (a2 ++ px ++ b1)) in *. set (Y := descsum_expand (a2 ++ py ++ b1)) in *.
  assert (FX : Forall pos_ok (a2 ++ px ++ b1)) by (rewrite !Forall_app; auto).
  assert (FY : Forall pos_ok (a2 ++ py ++ b1)) by (rewrite !Forall_app; auto).
  assert (SL : length (a2 ++ px ++ b1) = length (a2 ++ py ++ b1)) by (rewrite !app_length; lia).
  assert (XY : X <> Y).
  { intros Q. apply NP. apply expand_inj in Q; auto. apply app_inv_head in Q. apply app_inv_tail in Q. auto. }
  assert (V : forall l, Forall sym_ok l -> v40 (Z.lxor (descsum_polymod l) 1)).
  { intros l Hl. apply lxor_v40; [|unfold v40; lia]. apply pm_v40; auto. unfold v40; lia. }
  assert (Z8 : Forall sym_ok (repeat 0 8)) by (repeat constructor; unfold sym_ok; lia).
  assert (SX : Forall sym_ok X) by (apply expand_ok; auto). assert (SY : Forall sym_ok Y) by (apply expand_ok; auto).
  assert (S1 : Forall sym_ok (descsum_expand a1)) by (apply expand_ok; auto).
  assert (S2 : Forall sym_ok (descsum_expand b2)) by (apply expand_ok; auto).
  apply word_inj in D; try (apply V; rewrite !Forall_app; tauto).
  apply (f_equal (fun z => Z.lxor z 1)) in D. rewrite !Z.lxor_assoc, !Z.lxor_nilpotent, !Z.lxor_0_r in D.
  rewrite (descsum_pm ((descsum_expand a1 ++ X ++ _) ++ _)), (descsum_pm ((descsum_expand a1 ++ Y ++ _) ++ _)), !pm_app in D.
  assert (V1 : v40 (pm 1 (descsum_expand a1))) by (apply pm_v40; auto; unfold v40; lia).
  assert (P : pm (pm 1 (descsum_expand a1)) X <> pm (pm 1 (descsum_expand a1)) Y).
  { apply window; auto; [apply expand_len; auto|apply expand_len6; auto]. }
  clearbody X Y. refine (pm_same _ _ _ _ _ Z8 _ D); auto using pm_v40. apply pm_same; auto using pm_v40.
Qed.
Lemma string_detects : forall a x y b w, length x = length y -> (length x <= 4)%nat -> x <> y -> ~ In 0 (a ++ x ++ y ++ b) ->
  w <> [] -> descriptorChecksum_String (a ++ x ++ b) = Ok w -> descriptorChecksum_String (a ++ y ++ b) <> Ok w.
Proof.
  intros a x y b w E K N Z W H H'.
  assert (~ In 0 (a ++ x ++ b) /\ ~ In 0 (a ++ y ++ b)) as [Z1 Z2] by (rewrite !in_app_iff in *; tauto).
  rewrite string_bip380 in H, H' by auto. pose proof (detects a x y b w E K N) as D.
  destruct (descsum (a ++ x ++ b)) as [u|]; [|congruence]. destruct (descsum (a ++ y ++ b)) as [v|]; [|congruence].
  apply D; congruence.
Qed.
Lemma zero_refuted : forall a b n, (8 <= n)%nat -> (forall ch, In ch (a ++ b) -> In ch (chars INPUT_CHARSET)) ->
  ~ In 0 (chars INPUT_CHARSET) /\ exists w, length w = 8%nat /\ descriptorChecksum (a ++ [0] ++ b) n = Ok (w ++ zeros (n - 8), 8).
Proof.
  intros a b n Hn H. split.
  - intros I. assert (F : forallb (fun c => negb (c =? 0)) (chars INPUT_CHARSET) = true) by (vm_compute; reflexivity).
    rewrite forallb_forall in F. specialize (F 0 I). discriminate.
  - destruct (zero_accepted (a ++ [0] ++ b) n Hn) as (w & E & L).
    + intros ch I. rewrite !in_app_iff in I. destruct I as [I|[[<-|[]]|I]]; auto; right; apply H; rewrite in_app_iff; auto.
    + exists w. auto.
Qed.
