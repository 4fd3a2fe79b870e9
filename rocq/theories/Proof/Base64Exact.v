(** Exactly which text fromBase64 takes, and for what (C84). *)
From Coq Require Import Lia.
From Verif Require Import Base.Bytes Base.BytesFacts Model.Conversion Model.Text Spec.Codecs Spec.Text Proof.IntVarint Proof.Base64.
Open Scope Z_scope.

Lemma strchr_std : forall c, c <> 0 ->
  (exists d, b64_digit c d /\ strchr BASE64_CHARS c = Some d) \/ ((~ exists d, b64_digit c d) /\ strchr BASE64_CHARS c = None).
Proof.
  intros c N. assert (BACK : forall d, b64_digit c d -> strchr BASE64_CHARS c = Some d).
  { intros d (R & E). destruct (strchr_b64 b64_std d R) as [Q _]. cbn [b64_std urlsafe] in Q.
    unfold norm_char in Q. cbn [urlsafe] in Q. rewrite !andb_false_r in Q. rewrite E. exact Q. }
  destruct (strchr BASE64_CHARS c) as [p|] eqn:E.
  - left. exists p. split; auto. unfold strchr in E. apply index_of_some in E as [R E].
    rewrite len_app in R. change (len BASE64_CHARS) with 64 in R. change (len [0]) with 1 in R.
    destruct (Z.eq_dec p 64) as [->|NE]; [exfalso; apply N; rewrite <- E; reflexivity|].
    split; [lia|]. rewrite <- E. change BASE64_CHARS with (b64_alphabet false). apply app_nth1. change (length (b64_alphabet false)) with 64%nat. lia.
  - right. split; auto. intros (d & D). apply BACK in D. congruence.
Qed.
Lemma digit_nonzero : forall c d, b64_digit c d -> c <> 0.
Proof.
  intros c d (R & ->). assert (S : forall d, 0 <= d < Z.of_nat 64 -> negb (nth (Z.to_nat d) (b64_alphabet false) 0 =? 0) = true) by (apply zrange_sweep; vm_compute; reflexivity).
  specialize (S d ltac:(lia)). apply negb_true_iff, Z.eqb_neq in S. auto.
Qed.
Lemma digit_not_pad : forall d, ~ b64_digit 61 d.
Proof.
  intros d (R & E). assert (S : forall d, 0 <= d < Z.of_nat 64 -> negb (nth (Z.to_nat d) (b64_alphabet false) 0 =? 61) = true) by (apply zrange_sweep; vm_compute; reflexivity).
  specialize (S d ltac:(lia)). rewrite <- E in S. discriminate.
Qed.
Lemma digit_fun : forall c d e, b64_digit c d -> b64_digit c e -> d = e.
Proof.
  intros c d e D E. pose proof (digit_nonzero _ _ D) as N. destruct D as (R & Ed), E as (R' & Ee).
  destruct (strchr_b64 b64_std d R) as [Q _]. destruct (strchr_b64 b64_std e R') as [Q' _].
  unfold norm_char in Q, Q'. cbn [b64_std urlsafe] in Q, Q'. rewrite !andb_false_r in Q, Q'. rewrite <- Ed in Q. rewrite <- Ee in Q'. congruence.
Qed.
(** One character of a group. *)
Lemma group_digit : forall k i val c d t, b64_digit c d -> 0 <= val < 2^20 ->
  b64_group b64_std (S k) i val (c :: t) = b64_group b64_std k (i + 1) (val * 64 + d) t.
Proof.
  intros k i val c d t (R & ->) V. change (b64_alphabet false) with (b64_alphabet (urlsafe b64_std)).
  rewrite b64_step by auto. rewrite sh6 by auto. rewrite u32_id by lia. reflexivity.
Qed.
Lemma group_pad : forall k i val t, b64_group b64_std (S k) i val (61 :: t) =
    (if i =? 3 then GLast [Z.land (Z.shiftr (Z.shiftr val 2) 8) 255; Z.land (Z.shiftr val 2) 255]
     else if i =? 2 then GLast [Z.land (Z.shiftr val 4) 255] else GFail).
Proof. intros. apply b64_stop. left. auto. Qed.
Lemma group_bad : forall k i val c t, c <> 0 -> c <> 61 -> (~ exists d, b64_digit c d) -> b64_group b64_std (S k) i val (c :: t) = GFail.
Proof.
  intros k i val c t N P D. destruct (strchr_std c N) as [(d & B & _)|(_ & E)]; [exfalso; eauto|].
  cbn [b64_group b64_std urlsafe nopad]. rewrite !andb_false_r. cbn [andb]. rewrite E. destruct (Z.eqb_spec c 61); [congruence|reflexivity].
Qed.
(** A group of four characters. *)
Inductive group_reads : list Z -> b64_group_result -> Prop :=
| gr_four : forall c0 c1 c2 c3 d0 d1 d2 d3, b64_digit c0 d0 -> b64_digit c1 d1 -> b64_digit c2 d2 -> b64_digit c3 d3 ->
    group_reads [c0; c1; c2; c3] (GFull (((d0 * 64 + d1) * 64 + d2) * 64 + d3))
| gr_three : forall c0 c1 c2 d0 d1 d2, b64_digit c0 d0 -> b64_digit c1 d1 -> b64_digit c2 d2 ->
    group_reads [c0; c1; c2; 61] (GLast (be_bytes 2 (((d0 * 64 + d1) * 64 + d2) / 4)))
| gr_two : forall c0 c1 x d0 d1, b64_digit c0 d0 -> b64_digit c1 d1 -> group_reads [c0; c1; 61; x] (GLast [(d0 * 64 + d1) / 16]).
Lemma group_exact : forall c0 c1 c2 c3 t, c0 <> 0 -> c1 <> 0 -> c2 <> 0 -> c3 <> 0 ->
  let g := b64_group b64_std 4 0 0 (c0 :: c1 :: c2 :: c3 :: t) in
  group_reads [c0; c1; c2; c3] g \/ (g = GFail /\ forall r, ~ group_reads [c0; c1; c2; c3] r).
Proof.
  intros c0 c1 c2 c3 t N0 N1 N2 N3 g. subst g.
  destruct (strchr_std c0 N0) as [(d0 & D0 & _)|(B0 & _)].
  2:{ right. split; [|intros r G; inversion G; subst; eauto]. destruct (Z.eq_dec c0 61) as [->|P]; [rewrite group_pad; reflexivity|apply group_bad; auto]. }
  rewrite (group_digit _ _ _ _ d0) by (auto; lia).
  destruct (strchr_std c1 N1) as [(d1 & D1 & _)|(B1 & _)].
  2:{ right. split; [|intros r G; inversion G; subst; eauto]. destruct (Z.eq_dec c1 61) as [->|P]; [rewrite group_pad; reflexivity|apply group_bad; auto]. }
  assert (R0 := proj1 D0). assert (R1 := proj1 D1).
  rewrite (group_digit _ _ _ _ d1) by (auto; lia).
  destruct (Z.eq_dec c2 61) as [->|P2].
  { left. rewrite group_pad. change (0 + 1 + 1 =? 3) with false. change (0 + 1 + 1 =? 2) with true. cbn iota.
    replace (Z.land (Z.shiftr ((0 * 64 + d0) * 64 + d1) 4) 255) with ((d0 * 64 + d1) / 16); [constructor; auto|].
    rewrite land255, Z.shiftr_div_pow2 by lia. change (2^4) with 16. dlia. }
  destruct (strchr_std c2 N2) as [(d2 & D2 & _)|(B2 & _)].
  2:{ right. split; [apply group_bad; auto|]. intros r G. inversion G; subst; eauto; congruence. }
  assert (R2 := proj1 D2). rewrite (group_digit _ _ _ _ d2) by (auto; lia).
  destruct (Z.eq_dec c3 61) as [->|P3].
  { left. rewrite group_pad. change (0 + 1 + 1 + 1 =? 3) with true. cbn iota.
    replace ((0 * 64 + d0) * 64 + d1) with (d0 * 64 + d1) by lia. set (v := (d0 * 64 + d1) * 64 + d2).
    replace [Z.land (Z.shiftr (Z.shiftr v 2) 8) 255; Z.land (Z.shiftr v 2) 255] with (be_bytes 2 (v / 4)).
    - constructor; auto.
    - rewrite !land255, !Z.shiftr_div_pow2 by lia. change (2^2) with 4. change (2^8) with 256. reflexivity. }
  destruct (strchr_std c3 N3) as [(d3 & D3 & _)|(B3 & _)].
  2:{ right. split; [apply group_bad; auto|]. intros r G. inversion G; subst; eauto; congruence. }
  left. assert (R3 := proj1 D3). rewrite (group_digit _ _ _ _ d3) by (auto; lia).
  cbn [b64_group]. replace ((((0 * 64 + d0) * 64 + d1) * 64 + d2) * 64 + d3) with (((d0 * 64 + d1) * 64 + d2) * 64 + d3) by lia.
  constructor; auto.
Qed.
Lemma group_fun : forall l r r', group_reads l r -> group_reads l r' -> r = r'.
Proof.
  intros l r r' H H'. inversion H; subst; inversion H'; subst; try (exfalso; eapply digit_not_pad; eassumption);
    repeat match goal with A : b64_digit ?c ?d, B : b64_digit ?c ?e |- _ => rewrite (digit_fun _ _ _ A B) in *; clear A end; reflexivity.
Qed.
(** The whole text. *)
Definition loop_ok (text : list Z) (acc : list Z) (size : Z) (r : outcome (option (list Z))) : Prop :=
  (exists bs, b64_reads text bs /\ len acc + len bs <= size /\ r = Ok (Some (acc ++ bs))) \/
  ((forall bs, b64_reads text bs -> size < len acc + len bs) /\ r = Ok None).
Lemma be_bytes_len : forall n x, len (be_bytes n x) = Z.of_nat n.
Proof. intros n x. unfold be_bytes, len. rewrite rev_length. f_equal. revert x. induction n; intros x; cbn [le_bytes length]; auto. Qed.
Lemma loop_exact : forall fuel text acc size, no_nul text -> (length text <= fuel)%nat -> len acc <= size ->
  loop_ok text acc size (fromBase64_loop fuel b64_std text acc size).
Proof.
  induction fuel as [|fuel IH]; intros text acc size N L S.
  - destruct text; [|cbn in L; lia]. left. exists []. repeat split; [constructor|rewrite len_nil; lia|cbn; rewrite app_nil_r; auto].
  - destruct text as [|c0 [|c1 [|c2 [|c3 t]]]].
    + left. exists []. repeat split; [constructor|rewrite len_nil; lia|cbn; rewrite app_nil_r; auto].
    + right. split; [intros bs B; inversion B|reflexivity].
    + right. split; [intros bs B; inversion B|reflexivity].
    + right. split; [intros bs B; inversion B|reflexivity].
    + inversion N as [|? ? N0 Na]; subst. inversion Na as [|? ? N1 Nb]; subst. inversion Nb as [|? ? N2 Nc]; subst. inversion Nc as [|? ? N3 Nt]; subst.
      cbn [fromBase64_loop].
      replace ((len (c0 :: c1 :: c2 :: c3 :: t) <? 4) && negb (nopad b64_std)) with false.
      2:{ symmetry. rewrite !len_cons. pose proof (len_nonneg _ t). destruct (Z.ltb_spec (1 + (1 + (1 + (1 + len t)))) 4); [lia|reflexivity]. }
      cbn [app]. pose proof (group_exact c0 c1 c2 c3 (t ++ [0]) N0 N1 N2 N3) as G. cbv zeta in G.
      destruct (b64_group b64_std 4 0 0 (c0 :: c1 :: c2 :: c3 :: t ++ [0])) as [v|l| |].
      * destruct G as [G|[G _]]; [|discriminate]. assert (NP : c2 <> 61 /\ c3 <> 61) by (inversion G; subst; split; intros ->; eapply digit_not_pad; eassumption).
        destruct (Z.ltb_spec size (len acc + 3)).
        -- right. split; auto. intros bs B. inversion B; subst; try (destruct NP; congruence). rewrite len_app, be_bytes_len. pose proof (len_nonneg _ bs0). lia.
        -- inversion G; subst. rewrite intToBigEndian_ok by (repeat match goal with D : b64_digit _ _ |- _ => destruct D as [? _] end; lia). cbn [bind skipn].
           set (v := ((d0 * 64 + d1) * 64 + d2) * 64 + d3).
           assert (LB : len (be_bytes 3 v) = 3) by apply be_bytes_len.
           destruct (IH t (acc ++ be_bytes 3 v) size Nt) as [(bs & B & LS & E)|(B & E)].
           ++ cbn [length] in L. lia.
           ++ rewrite len_app. lia.
           ++ left. exists (be_bytes 3 v ++ bs). split; [apply br_four; auto|]. rewrite len_app in *. split; [lia|]. rewrite E, app_assoc. reflexivity.
           ++ right. split; auto. intros bs' B'. inversion B'; subst; try (destruct NP; congruence). rewrite !len_app, be_bytes_len in *.
              match goal with X : b64_reads t ?y |- _ => specialize (B y X) end. lia.
      * destruct G as [G|[G _]]; [|discriminate].
        assert (BR : b64_reads (c0 :: c1 :: c2 :: c3 :: t) l) by (inversion G; subst; constructor; auto).
        assert (UN : forall bs, b64_reads (c0 :: c1 :: c2 :: c3 :: t) bs -> bs = l).
        { intros bs B. inversion B; subst.
          - exfalso. inversion G; subst; eapply digit_not_pad; eassumption.
          - assert (GLast (be_bytes 2 (((d0 * 64 + d1) * 64 + d2) / 4)) = GLast l) as Q by (eapply group_fun; [constructor; eassumption|exact G]). congruence.
          - assert (GLast [(d0 * 64 + d1) / 16] = GLast l) as Q by (eapply group_fun; [constructor; eassumption|exact G]). congruence. }
        destruct (Z.ltb_spec size (len acc + len l)).
        -- right. split; auto. intros bs B. rewrite (UN bs B). auto.
        -- left. exists l. auto.
      * destruct G as [G|[_ G]]; [inversion G|]. right. split; auto. intros bs B. exfalso. inversion B; subst; eapply G; econstructor; eassumption.
      * destruct G as [G|[G _]]; [inversion G|discriminate].
Qed.
Lemma length_defined : forall text, text <> [] -> exists l, fromBase64Length b64_std text = Ok l.
Proof.
  intros text N. unfold fromBase64Length. cbn [nopad b64_std negb]. rewrite andb_true_r.
  destruct (Z.eqb_spec (len text mod 4) 0) as [E|E]; [|cbn [negb]; eexists; reflexivity]. cbn [negb].
  assert (P : 2 <= len text) by (destruct text; [congruence|]; rewrite len_cons in *; pose proof (len_nonneg _ text); dlia).
  assert (A : forall i, 0 <= i < len text -> exists x, aget text i = Ok x).
  { intros i I. unfold aget. replace ((0 <=? i) && (i <? len text)) with true by (symmetry; apply andb_true_intro; lia).
    eexists; reflexivity. }
  destruct (A (len text - 1) ltac:(lia)) as (x & ->). destruct (A (len text - 2) ltac:(lia)) as (y & ->). cbn [bind]. eexists; reflexivity.
Qed.
Lemma fromBase64_exact : forall text out l, no_nul text -> fromBase64Length b64_std text = Ok l -> l <= len out ->
  (exists bs, b64_reads text bs /\ len bs <= len out /\ fromBase64 b64_std text out = Ok (len bs, bs ++ zeros (length out - length bs))) \/
  ((forall bs, b64_reads text bs -> len out < len bs) /\ fromBase64 b64_std text out = Ok (0, zeros (length out))).
Proof.
  intros text out l N E L. unfold fromBase64. rewrite E. cbn [bind]. destruct (Z.ltb_spec (len out) l); [lia|].
  destruct (loop_exact (length text) text [] (len out) N (Nat.le_refl _) ltac:(rewrite len_nil; apply len_nonneg)) as [(bs & B & LS & Q)|(B & Q)]; rewrite Q; cbn [bind].
  - left. exists bs. rewrite len_nil in LS. repeat split; auto.
  - right. split; [exact B|reflexivity].
Qed.
