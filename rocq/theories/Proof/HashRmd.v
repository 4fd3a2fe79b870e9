(** RIPEMD-160: the process function is the standard's compression function, and buffering is
    transparent. *)
From Verif Require Import Base.Bytes Base.BytesFacts Base.Groups Spec.Codecs Spec.Hash.
From Verif Require Import Model.Hash Proof.IntVarint Proof.HashWords Proof.HashSha.
Require Import Lia.
Open Scope Z_scope.

Definition ok5 (R : list Z) : Prop := length R = 5%nat /\ Forall (word_ok 32) R.
Lemma u32_ok : forall x, word_ok 32 (u32 x).
Proof. intros. apply Z.mod_pos_bound. lia. Qed.

(** The registers as the standard names them, when [k] steps have been done. *)
Definition rot (k : nat) : list nat :=
  match k with
  | 0%nat => [0; 1; 2; 3; 4]
  | 1%nat => [4; 0; 1; 2; 3]
  | 2%nat => [3; 4; 0; 1; 2]
  | 3%nat => [2; 3; 4; 0; 1]
  | _ => [1; 2; 3; 4; 0]
  end%nat.
Definition next (k : nat) : nat := match k with 0 => 1 | 1 => 2 | 2 => 3 | 3 => 4 | _ => 0 end%nat.
Definition view (k : nat) (R : list Z) : list Z := map (fun i => nth i R 0) (rot k).

Lemma S32_rotl : forall x n, word_ok 32 x -> 0 <= n <= 32 -> S32 x n = rotl 32 n x.
Proof. intros. unfold S32, u32. apply rotl_eq; auto. Qed.

Lemma P_step : forall X F f K r s k R, ok5 R -> (k < 5)%nat -> 0 <= s <= 32 ->
  (forall x y z, word_ok 32 x -> word_ok 32 y -> word_ok 32 z -> F x y z = f x y z) ->
  let R' := rmd_P X F K (rot k) (r, s) R in
  ok5 R' /\ view (next k) R' = rmd_step f K (nth r X 0) s (view k R).
Proof.
  intros X F f K r s k R [L O] Hk Hs HF.
  destruct R as [|a [|b [|c [|d [|e [|]]]]]]; try discriminate.
  assert (OO : word_ok 32 a /\ word_ok 32 b /\ word_ok 32 c /\ word_ok 32 d /\ word_ok 32 e).
  { repeat match goal with H : Forall _ (_ :: _) |- _ => inversion_clear H end. tauto. }
  destruct OO as (Ha & Hb & Hc & Hd & He).
  assert (R10 : forall x, word_ok 32 x -> word_ok 32 (rotl 32 10 x)) by (intros; apply rotl_range; auto; lia).
  destruct k as [|[|[|[|[|]]]]]; try lia; cbv zeta; unfold rmd_P, view;
    cbn [rot next nth fst snd set_nth map rmd_step];
    rewrite HF by auto; rewrite !S32_rotl by (auto using u32_ok; lia);
    (split; [split; [reflexivity|repeat (apply Forall_cons || apply Forall_nil); auto using u32_ok]|reflexivity]).
Qed.

Lemma shift_range : forall j r, 0 <= rmd_shift j r <= 32.
Proof.
  intros. unfold rmd_shift.
  assert (G : Forall (Forall (fun x => 0 <= x <= 32)) rmd_shifts).
  { unfold rmd_shifts. repeat (apply Forall_cons || apply Forall_nil); lia. }
  assert (G1 : Forall (fun x => 0 <= x <= 32) (nth j rmd_shifts [])).
  { destruct (Nat.ltb_spec j (length rmd_shifts)) as [H|H].
    - rewrite Forall_forall in G. apply G. apply nth_In. auto.
    - rewrite nth_overflow by auto. constructor. }
  apply Forall_nth0; auto. lia.
Qed.

(** The table lines of one group, from role [k] and index [i] on. *)
Fixpoint check (j k i : nat) (lines : list (list nat * (nat * Z) * (nat * Z))) : bool :=
  match lines with
  | [] => true
  | (roles, (r, s), (rp, sp)) :: t =>
      forallb (fun ab => Nat.eqb (fst ab) (snd ab)) (combine roles (rot k)) && Nat.eqb (length roles) 5
      && Nat.eqb r (rmd_r j i) && (s =? rmd_shift j r)
      && Nat.eqb rp (rmd_r' j i) && (sp =? rmd_shift j rp)
      && check j (next k) (S i) t
  end.
Lemma roles_eq : forall a b, length a = length b -> forallb (fun ab => Nat.eqb (fst ab) (snd ab)) (combine a b) = true -> a = b.
Proof.
  induction a; intros [|y b] L H; try discriminate; auto. cbn [combine forallb fst snd] in H.
  apply andb_true_iff in H as [H1 H2]. apply Nat.eqb_eq in H1. subst. f_equal. apply IHa; auto.
Qed.
Fixpoint steps (k n : nat) : nat := match n with O => k | S n' => steps (next k) n' end.
Lemma next_lt : forall k, (next k < 5)%nat. Proof. destruct k as [|[|[|[|]]]]; cbn; lia. Qed.

Section Group.
Variables (X : list Z) (j : nat) (F Fp : Z -> Z -> Z -> Z) (K Kp : Z).
Hypothesis HF : forall x y z, word_ok 32 x -> word_ok 32 y -> word_ok 32 z -> F x y z = rmd_f j x y z.
Hypothesis HFp : forall x y z, word_ok 32 x -> word_ok 32 y -> word_ok 32 z -> Fp x y z = rmd_f (4 - j) x y z.
Definition stepL (v : list Z) (i : nat) : list Z :=
  rmd_step (rmd_f j) K (nth (rmd_r j i) X 0) (rmd_shift j (rmd_r j i)) v.
Definition stepR (v : list Z) (i : nat) : list Z :=
  rmd_step (rmd_f (4 - j)) Kp (nth (rmd_r' j i) X 0) (rmd_shift j (rmd_r' j i)) v.
Lemma group_eq : forall lines k i R Rp, check j k i lines = true -> (k < 5)%nat -> ok5 R -> ok5 Rp ->
  let RR := rmd_group X (R, Rp) (lines, F, K, Fp, Kp) in
  ok5 (fst RR) /\ ok5 (snd RR) /\
  view (steps k (length lines)) (fst RR) = fold_left stepL (seq i (length lines)) (view k R) /\
  view (steps k (length lines)) (snd RR) = fold_left stepR (seq i (length lines)) (view k Rp).
Proof.
  induction lines as [|[[roles [r s]] [rp sp]] lines IH]; intros k i R Rp C Hk O Op.
  - cbn. auto.
  - cbn [check] in C. repeat (apply andb_true_iff in C as [C ?]).
    apply Z.eqb_eq in H0, H2. apply Nat.eqb_eq in H1, H3, H4. subst rp sp r s.
    apply roles_eq in C; [|rewrite H4; destruct k as [|[|[|[|]]]]; reflexivity]. subst roles.
    cbv zeta. cbn [rmd_group fold_left length seq steps].
    pose proof (P_step X F (rmd_f j) K (rmd_r j i) (rmd_shift j (rmd_r j i)) k R O Hk (shift_range _ _) HF) as [O1 V1].
    pose proof (P_step X Fp (rmd_f (4 - j)) Kp (rmd_r' j i) (rmd_shift j (rmd_r' j i)) k Rp Op Hk (shift_range _ _) HFp) as [O2 V2].
    specialize (IH (next k) (S i) _ _ H (next_lt k) O1 O2). cbv zeta in IH. cbn [rmd_group] in IH.
    rewrite V1, V2 in IH. exact IH.
Qed.
End Group.

Lemma F_ok : forall j x y z, word_ok 32 x -> word_ok 32 y -> word_ok 32 z -> (j < 5)%nat ->
  nth j [F1; F2; F3; F4; F5] F1 x y z = rmd_f j x y z.
Proof.
  intros j x y z Hx Hy Hz Hj. unfold word_ok in *.
  destruct j as [|[|[|[|[|]]]]]; try lia; cbn [nth rmd_f];
  unfold F1, F2, F3, F4, F5, not32, u32, xor3; rewrite ?lnot_mod by (auto; lia); reflexivity.
Qed.

Definition mK : list Z := [0; 0x5A827999; 0x6ED9EBA1; 0x8F1BBCDC; 0xA953FD4E].
Definition mKp : list Z := [0x50A28BE6; 0x5C4DD124; 0x6D703EF3; 0x7A6D76E9; 0].

Lemma sixteen : forall A (f : A -> nat * nat -> A) (h : A),
  fold_left f rmd_steps h
  = fold_left (fun v i => f v (4, i)%nat) (seq 0 16) (fold_left (fun v i => f v (3, i)%nat) (seq 0 16)
   (fold_left (fun v i => f v (2, i)%nat) (seq 0 16) (fold_left (fun v i => f v (1, i)%nat) (seq 0 16)
   (fold_left (fun v i => f v (0, i)%nat) (seq 0 16) h)))).
Proof. intros. reflexivity. Qed.

Lemma view0 : forall R, ok5 R -> view 0 R = R.
Proof. intros R [L _]. destruct R as [|a [|b [|c [|d [|e [|]]]]]]; try discriminate. reflexivity. Qed.

Lemma eighty : forall X st, ok5 st ->
  let RR := fold_left (rmd_group X) rmd_groups (st, st) in
  ok5 (fst RR) /\ ok5 (snd RR) /\ fst RR = rmd_left mK X st /\ snd RR = rmd_right mKp X st.
Proof.
  intros X st O. cbv zeta. unfold rmd_groups. cbn [fold_left].
  pose proof (group_eq X 0 F1 F5 0 0x50A28BE6 (fun x y z a b c => F_ok 0 x y z a b c ltac:(lia))
     (fun x y z a b c => F_ok 4 x y z a b c ltac:(lia)) p2_lines1 0 0 st st ltac:(vm_compute; reflexivity) ltac:(lia) O O) as G1.
  cbv zeta in G1. change (length p2_lines1) with 16%nat in G1. change (steps 0 16) with 1%nat in G1.
  destruct (rmd_group X (st, st) (p2_lines1, F1, 0, F5, 0x50A28BE6)) as [A1 B1]. cbn [fst snd] in G1.
  destruct G1 as (OA1 & OB1 & VA1 & VB1).
  pose proof (group_eq X 1 F2 F4 0x5A827999 0x5C4DD124 (fun x y z a b c => F_ok 1 x y z a b c ltac:(lia))
     (fun x y z a b c => F_ok 3 x y z a b c ltac:(lia)) p2_lines2 1 0 A1 B1 ltac:(vm_compute; reflexivity) ltac:(lia) OA1 OB1) as G2.
  cbv zeta in G2. change (length p2_lines2) with 16%nat in G2. change (steps 1 16) with 2%nat in G2.
  destruct (rmd_group X (A1, B1) _) as [A2 B2]. cbn [fst snd] in G2.
  destruct G2 as (OA2 & OB2 & VA2 & VB2).
  pose proof (group_eq X 2 F3 F3 0x6ED9EBA1 0x6D703EF3 (fun x y z a b c => F_ok 2 x y z a b c ltac:(lia))
     (fun x y z a b c => F_ok 2 x y z a b c ltac:(lia)) p2_lines3 2 0 A2 B2 ltac:(vm_compute; reflexivity) ltac:(lia) OA2 OB2) as G3.
  cbv zeta in G3. change (length p2_lines3) with 16%nat in G3. change (steps 2 16) with 3%nat in G3.
  destruct (rmd_group X (A2, B2) _) as [A3 B3]. cbn [fst snd] in G3.
  destruct G3 as (OA3 & OB3 & VA3 & VB3).
  pose proof (group_eq X 3 F4 F2 0x8F1BBCDC 0x7A6D76E9 (fun x y z a b c => F_ok 3 x y z a b c ltac:(lia))
     (fun x y z a b c => F_ok 1 x y z a b c ltac:(lia)) p2_lines4 3 0 A3 B3 ltac:(vm_compute; reflexivity) ltac:(lia) OA3 OB3) as G4.
  cbv zeta in G4. change (length p2_lines4) with 16%nat in G4. change (steps 3 16) with 4%nat in G4.
  destruct (rmd_group X (A3, B3) _) as [A4 B4]. cbn [fst snd] in G4.
  destruct G4 as (OA4 & OB4 & VA4 & VB4).
  pose proof (group_eq X 4 F5 F1 0xA953FD4E 0 (fun x y z a b c => F_ok 4 x y z a b c ltac:(lia))
     (fun x y z a b c => F_ok 0 x y z a b c ltac:(lia)) p2_lines5 4 0 A4 B4 ltac:(vm_compute; reflexivity) ltac:(lia) OA4 OB4) as G5.
  cbv zeta in G5. change (length p2_lines5) with 16%nat in G5. change (steps 4 16) with 0%nat in G5.
  destruct (rmd_group X (A4, B4) _) as [A5 B5]. cbn [fst snd] in G5 |- *.
  destruct G5 as (OA5 & OB5 & VA5 & VB5).
  rewrite view0 in VA5, VB5 by auto. rewrite view0 in VA1, VB1 by auto.
  rewrite VA4, VA3, VA2, VA1 in VA5. rewrite VB4, VB3, VB2, VB1 in VB5.
  split; [auto|]. split; [auto|]. unfold rmd_left, rmd_right. rewrite !sixteen. split; assumption.
Qed.

Lemma GET_le : forall g, bytes_ok g -> length g = 4%nat -> GET_UINT32_LE g = le g.
Proof.
  intros g O L. destruct g as [|a [|b [|c [|d [|]]]]]; try discriminate.
  assert (OO : byte_ok a /\ byte_ok b /\ byte_ok c /\ byte_ok d).
  { repeat match goal with H : bytes_ok (_ :: _) |- _ => inversion_clear H
      | H : Forall byte_ok (_ :: _) |- _ => inversion_clear H end. tauto. }
  destruct OO as (Ha & Hb & Hc & Hd). unfold byte_ok in *.
  unfold GET_UINT32_LE. cbn [nth]. rewrite !Z.shiftl_mul_pow2 by lia. unfold u32.
  change (2 ^ 8) with 256. change (2 ^ 16) with 65536. change (2 ^ 24) with 16777216.
  rewrite !Z.mod_small by (change (2 ^ 32) with 4294967296; lia).
  change 256 with (2 ^ 8) at 1. rewrite lor_add by (change (2 ^ 8) with 256; lia).
  change 65536 with (2 ^ 16) at 1. rewrite lor_add by (change (2 ^ 8) with 256; change (2 ^ 16) with 65536; lia).
  change 16777216 with (2 ^ 24) at 1.
  rewrite lor_add by (change (2 ^ 8) with 256; change (2 ^ 16) with 65536; change (2 ^ 24) with 16777216; lia).
  cbn [le_val]. change (2 ^ 8) with 256; change (2 ^ 16) with 65536; change (2 ^ 24) with 16777216. ring.
Qed.
Lemma PUT_le : forall n, word_ok 32 n -> PUT_UINT32_LE n = le_bytes 4 n.
Proof.
  intros n Hn. unfold PUT_UINT32_LE. change 0xFF with (Z.ones 8). rewrite !Z.land_ones by lia.
  rewrite !Z.shiftr_div_pow2 by lia. cbn [le_bytes]. change (2 ^ 8) with 256.
  change (2 ^ 16) with (256 * 256). change (2 ^ 24) with (256 * 256 * 256).
  rewrite <- !Z.div_div by lia. reflexivity.
Qed.

Notation comp := (rmd_block mK mKp).
Lemma process_eq : forall st data, ok5 st -> bytes_ok data -> length data = 64%nat ->
  rmd_process st data = comp st data /\ ok5 (comp st data).
Proof.
  intros st data O OD L. unfold rmd_process, rmd_block. cbv zeta.
  assert (EX : map GET_UINT32_LE (groups 4 data) = map le (groups 4 data)).
  { apply map_ext_in. intros g Hg.
    destruct (groups_all _ 4 16 data ltac:(lia) L) as (_ & A & _).
    pose proof (groups_bytes 4 16 data ltac:(lia) L OD) as G. rewrite Forall_forall in A, G.
    apply GET_le; auto. }
  rewrite EX. set (X := map le _).
  destruct (eighty X st O) as ([L1 _] & [L2 _] & E1 & E2).
  destruct (fold_left (rmd_group X) rmd_groups (st, st)) as [R Rp]. cbn [fst snd] in *.
  destruct st as [|h0 [|h1 [|h2 [|h3 [|h4 [|]]]]]]; try (destruct O as [O _]; discriminate O).
  cbv iota. rewrite <- E1, <- E2. clear E1 E2.
  destruct R as [|a [|b [|c [|d [|e [|]]]]]]; try discriminate L1.
  destruct Rp as [|a' [|b' [|c' [|d' [|e' [|]]]]]]; try discriminate L2.
  split; [reflexivity|]. split; [reflexivity|].
  cbn [map]. repeat (apply Forall_cons || apply Forall_nil); apply Z.mod_pos_bound; lia.
Qed.
Lemma fold5_ok : forall q l st, length l = (q * 64)%nat -> bytes_ok l -> ok5 st ->
  ok5 (fold_left comp (groups 64 l) st).
Proof.
  induction q; intros l st L OL O.
  - destruct l; [auto|cbn in L; lia].
  - rewrite <- (firstn_skipn 64 l).
    assert (LF : length (firstn 64 l) = 64%nat) by (rewrite firstn_length; lia).
    rewrite groups_cons by (auto; lia). change (fold_left comp (firstn 64 l :: ?t) st) with (fold_left comp t (comp st (firstn 64 l))).
    cbn [fold_left]. apply IHq.
    + rewrite skipn_length. lia.
    + apply bytes_ok_skipn; auto.
    + apply process_eq; auto using bytes_ok_firstn.
Qed.

(** * Buffering *)
Record rrep (H : list Z) (c : hctx) (m : list Z) : Prop := mkRrep {
  rr_parts : exists a r q, m = a ++ r /\ length a = (q * 64)%nat /\ (length r < 64)%nat /\
    h_state c = fold_left comp (groups 64 a) H /\ firstn (length r) (h_buf c) = r;
  rr_buf : length (h_buf c) = 64%nat;
  rr_cnt : h_count c = (len m mod 2 ^ 32, len m / 2 ^ 32);
  rr_bytes : bytes_ok m;
  rr_H : ok5 H }.

Lemma rblocks : forall H fuel c a r data q, (length data < fuel)%nat -> bytes_ok (a ++ r ++ data) ->
  length a = (q * 64)%nat -> h_state c = fold_left comp (groups 64 a) H -> length (h_buf c) = 64%nat ->
  firstn (length r) (h_buf c) = r -> (length r + length data < 64 \/ r = [])%nat -> (length r < 64)%nat ->
  ok5 H -> h_count c = (len (a ++ r ++ data) mod 2 ^ 32, len (a ++ r ++ data) / 2 ^ 32) ->
  rrep H (rmd_blocks fuel c (length r) data) (a ++ r ++ data).
Proof.
  intros H fuel. induction fuel; intros c a r data q Lf OB La St Lb Er Hr Hr64 OH C; [lia|].
  cbn [rmd_blocks].
  assert (OO : bytes_ok a /\ bytes_ok r /\ bytes_ok data) by (rewrite !bytes_ok_app in OB; auto).
  destruct OO as (Oa & Or & Od).
  destruct (Z.leb_spec 64 (len data)) as [G|G]; rewrite len_nat in G.
  - destruct Hr as [Hr| ->]; [lia|]. cbn [app length] in *.
    assert (LF : length (firstn 64 data) = 64%nat) by (rewrite firstn_length; lia).
    assert (OF : bytes_ok (firstn 64 data)) by (apply bytes_ok_firstn; auto).
    rewrite <- (firstn_skipn 64 data) at 3. rewrite app_assoc.
    change (skipn 64 data) with ([] ++ skipn 64 data) at 2.
    apply (IHfuel _ (a ++ firstn 64 data) [] (skipn 64 data) (S q)); auto.
    + rewrite skipn_length. lia.
    + cbn [app]. rewrite <- app_assoc, firstn_skipn. auto.
    + rewrite app_length, La, LF. lia.
    + cbn [h_state]. rewrite St. rewrite (groups_app _ 64 q) by (auto; lia).
      rewrite (groups_one _ 64 (firstn 64 data)) by (auto; lia). rewrite fold_left_app.
      change (fold_left comp [firstn 64 data] ?x) with (comp x (firstn 64 data)).
      apply process_eq; auto. apply (fold5_ok q); auto.
    + cbn [app h_count]. rewrite <- app_assoc, firstn_skipn. auto.
  - destruct (Z.ltb_spec 0 (len data)) as [G1|G1].
    + assert (Hs : (length r + length data < 64)%nat) by (destruct Hr as [Hr| ->]; cbn [length]; lia).
      constructor; auto.
      * exists a, (r ++ data), q. repeat split; auto.
        { rewrite app_length. lia. }
        cbn [h_buf]. rewrite app_length, blit_first by lia. rewrite Er. auto.
      * cbn [h_buf]. rewrite blit_len; auto. lia.
    + assert (data = []) by (destruct data; auto; rewrite len_nat in G1; cbn [length] in G1; lia). subst.
      rewrite app_nil_r in *. constructor; auto. exists a, r, q. repeat split; auto.
Qed.

Lemma rUpdate : forall H c m data, rrep H c m -> bytes_ok data -> len data < 2 ^ 32 -> len (m ++ data) < 2 ^ 64 ->
  rrep H (rmd_Update c data) (m ++ data).
Proof.
  intros H c m data R OD L32 LIM. unfold rmd_Update.
  assert (Eu : u32 (len data) = len data) by (apply Z.mod_small; split; auto; apply len_nonneg).
  rewrite Eu.
  assert (Ef : firstn (Z.to_nat (len data)) data = data) by (rewrite len_nat, Nat2Z.id; apply firstn_all).
  rewrite Ef. clear Ef Eu.
  destruct (Z.eqb_spec (len data) 0) as [E0|E0].
  { destruct data; [|rewrite len_nat in E0; cbn [length] in E0; lia]. rewrite app_nil_r. auto. }
  destruct R as [(a & r & q & Em & La & Lr & St & Er) Lb C OM OH].
  rewrite C. cbn [fst snd].
  pose proof (len_nonneg _ m) as Lm0. pose proof (len_nonneg _ data) as Ld0.
  assert (Lm : len m = Z.of_nat q * 64 + Z.of_nat (length r)).
  { rewrite Em, len_app, !len_nat, La. lia. }
  assert (Eleft : Z.land (len m mod 2 ^ 32) 0x3F = Z.of_nat (length r)).
  { change 0x3F with (Z.ones 6). rewrite Z.land_ones by lia. change (2 ^ 6) with 64.
    change (2 ^ 32) with (64 * 67108864). rewrite Z.rem_mul_r by lia.
    replace (64 * (len m / 64 mod 67108864)) with ((len m / 64 mod 67108864) * 64) by ring.
    rewrite Z.mod_add, Z.mod_mod by lia. rewrite Lm.
    rewrite Z.add_comm, Z.mod_add by lia. apply Z.mod_small. lia. }
  rewrite Eleft.
  assert (Et0 : Z.land (u32 (len m mod 2 ^ 32 + len data)) 0xFFFFFFFF = len (m ++ data) mod 2 ^ 32).
  { change 0xFFFFFFFF with (Z.ones 32). rewrite Z.land_ones by lia. unfold u32.
    rewrite Z.mod_mod, Zplus_mod_idemp_l, len_app by lia. reflexivity. }
  rewrite Et0.
  assert (Et1 : (if len (m ++ data) mod 2 ^ 32 <? len data then u32 (len m / 2 ^ 32 + 1) else len m / 2 ^ 32)
                = len (m ++ data) / 2 ^ 32).
  { rewrite len_app in *. clear - L32 LIM Lm0 Ld0. revert Lm0 Ld0 L32 LIM.
    generalize (len m) (len data). intros x y Hx Hy Hy32 Hs.
    change (2 ^ 32) with 4294967296 in *. change (2 ^ 64) with 18446744073709551616 in *.
    unfold u32. change (2 ^ 32) with 4294967296. destruct (Z.ltb_spec ((x + y) mod 4294967296) y); dlia. }
  rewrite Et1. clear Et0 Et1.
  assert (OM2 : bytes_ok (a ++ r ++ data)).
  { rewrite Em in OM. rewrite app_assoc, bytes_ok_app. auto. }
  assert (OO : bytes_ok a /\ bytes_ok r) by (rewrite !bytes_ok_app in OM2; tauto). destruct OO as [Oa Or].
  replace (64 - Z.of_nat (length r)) with (Z.of_nat (64 - length r)) by lia.
  rewrite !Nat2Z.id. cbn [h_state h_buf h_count].
  assert (Em2 : m ++ data = a ++ r ++ data) by (rewrite Em, <- app_assoc; auto).
  rewrite Em2.
  destruct (Z.eqb_spec (Z.of_nat (length r)) 0) as [G|G]; cbn [negb andb].
  - apply (rblocks H _ _ a r data q); auto. right. destruct r; auto. cbn [length] in G. lia.
  - destruct (Z.leb_spec (Z.of_nat (64 - length r)) (len data)) as [G1|G1]; rewrite len_nat in G1.
    + set (f := (64 - length r)%nat) in *.
      assert (LF : length (firstn f data) = f) by (rewrite firstn_length; lia).
      assert (Eb : blit (h_buf c) (length r) (firstn f data) = r ++ firstn f data).
      { rewrite blit_full by (unfold f in *; lia). rewrite Er. auto. }
      rewrite Eb.
      assert (LB : length (r ++ firstn f data) = 64%nat) by (rewrite app_length; unfold f in *; lia).
      assert (OB : bytes_ok (r ++ firstn f data)) by (rewrite bytes_ok_app; auto using bytes_ok_firstn).
      replace (a ++ r ++ data) with ((a ++ r ++ firstn f data) ++ [] ++ skipn f data).
      2:{ cbn [app]. rewrite <- !app_assoc, firstn_skipn. reflexivity. }
      apply (rblocks H _ _ (a ++ r ++ firstn f data) [] (skipn f data) (S q)); auto.
      * rewrite skipn_length. lia.
      * cbn [app]. rewrite <- !app_assoc, firstn_skipn. auto.
      * rewrite app_length, LB, La. lia.
      * cbn [h_state]. rewrite St. rewrite (groups_app _ 64 q) by (auto; lia).
        rewrite (groups_one _ 64 (r ++ _)) by (auto; lia). rewrite fold_left_app.
        change (fold_left comp [r ++ firstn f data] ?x) with (comp x (r ++ firstn f data)).
        apply process_eq; auto. apply (fold5_ok q); auto.
      * cbn [length]. lia.
    + apply (rblocks H _ _ a r data q); auto. left. lia.
Qed.

Lemma rFinal : forall H c m, rrep H c m -> len m < 2 ^ 61 ->
  fst (rmd_Final c) = flat_map (le_bytes 4) (fold_left comp (groups 64 (md_pad 64 8 le_bytes m)) H).
Proof.
  intros H c m R L61. unfold rmd_Final. pose proof R as [(a & r & q & Em & La & Lr & St & Er) Lb C OM OH].
  rewrite C. pose proof (len_nonneg _ m) as Lm0.
  assert (Lm : len m = Z.of_nat q * 64 + Z.of_nat (length r)).
  { rewrite Em, len_app, !len_nat, La. lia. }
  assert (Eleft : Z.land (len m mod 2 ^ 32) 0x3F = Z.of_nat (length r)).
  { change 0x3F with (Z.ones 6). rewrite Z.land_ones by lia. change (2 ^ 6) with 64.
    change (2 ^ 32) with (64 * 67108864). rewrite Z.rem_mul_r by lia.
    replace (64 * (len m / 64 mod 67108864)) with ((len m / 64 mod 67108864) * 64) by ring.
    rewrite Z.mod_add, Z.mod_mod by lia. rewrite Lm.
    rewrite Z.add_comm, Z.mod_add by lia. apply Z.mod_small. lia. }
  rewrite Eleft.
  set (low := u32 (Z.shiftl (len m mod 2 ^ 32) 3)).
  set (high := Z.lor (Z.shiftr (len m mod 2 ^ 32) 29) (u32 (Z.shiftl (len m / 2 ^ 32) 3))).
  assert (Elow : low = (8 * len m) mod 2 ^ 32).
  { unfold low, u32. rewrite Z.shiftl_mul_pow2 by lia. change (2 ^ 3) with 8.
    rewrite Zmult_mod_idemp_l. f_equal. ring. }
  assert (Ehigh : high = (8 * len m) / 2 ^ 32).
  { unfold high, u32. rewrite Z.shiftl_mul_pow2, Z.shiftr_div_pow2 by lia.
    rewrite (Z.mod_small (len m / 2 ^ 32 * 2 ^ 3)).
    2:{ change (2 ^ 61) with (2 ^ 32 * 2 ^ 29) in L61. split.
        - assert (0 <= len m / 2 ^ 32) by (apply Z.div_pos; lia). lia.
        - assert (len m / 2 ^ 32 < 2 ^ 29) by (apply Z.div_lt_upper_bound; lia).
          set (d := len m / 2 ^ 32) in *. change (2 ^ 32) with (2 ^ 29 * 2 ^ 3). lia. }
    rewrite lor_add.
    - change (2 ^ 32) with 4294967296. change (2 ^ 29) with 536870912. change (2 ^ 3) with 8.
      clear - Lm0. dlia.
    - lia.
    - split. { apply Z.div_pos; [apply Z.mod_pos_bound; lia|lia]. }
      apply Z.div_lt_upper_bound; [lia|]. change (2 ^ 29 * 2 ^ 3) with (2 ^ 32). apply Z.mod_pos_bound. lia.
    - apply Z.div_pos; lia. }
  assert (Emsg : PUT_UINT32_LE low ++ PUT_UINT32_LE high = le_bytes 8 (8 * len m)).
  { rewrite !PUT_le.
    - change 8%nat with (4 + 4)%nat. rewrite le_bytes_app. rewrite Elow, Ehigh. f_equal.
      rewrite <- (le_bytes_val (le_bytes 4 (8 * len m))) by apply le_bytes_ok.
      rewrite le_bytes_length, le_val_le_bytes. reflexivity.
    - rewrite Ehigh. unfold word_ok. split. { apply Z.div_pos; lia. }
      apply Z.div_lt_upper_bound; [lia|]. change (2 ^ 32 * 2 ^ 32) with (8 * 2 ^ 61). lia.
    - apply u32_ok. }
  rewrite Emsg.
  set (padn := if Z.of_nat (length r) <? 56 then 56 - Z.of_nat (length r) else 120 - Z.of_nat (length r)).
  assert (Hp : 1 <= padn <= 64) by (unfold padn; destruct (Z.ltb_spec (Z.of_nat (length r)) 56); lia).
  assert (Epad : firstn (Z.to_nat padn) (128 :: zeros 63) = [128] ++ zeros (Z.to_nat padn - 1)).
  { replace (Z.to_nat padn) with (S (Z.to_nat padn - 1)) at 1 by lia. rewrite firstn_cons. cbn [app].
    f_equal. assert (Hk : (Z.to_nat padn - 1 <= 63)%nat) by lia. revert Hk.
    generalize (Z.to_nat padn - 1)%nat. intros k Hk. unfold zeros.
    rewrite <- (repeat_length 0 k) at 1. replace 63%nat with (k + (63 - k))%nat by lia.
    rewrite repeat_app. apply firstn_app_len. auto. }
  rewrite Epad.
  set (pd := [128] ++ zeros (Z.to_nat padn - 1)).
  assert (Lpd : len pd = padn) by (unfold pd; rewrite len_app, len_zeros; change (len [128]) with 1; lia).
  assert (Opd : bytes_ok pd).
  { unfold pd. rewrite bytes_ok_app. split; auto using bytes_ok_zeros. constructor; [unfold byte_ok; lia|constructor]. }
  assert (R1 : rrep H (rmd_Update c pd) (m ++ pd)).
  { apply rUpdate; auto. lia. rewrite len_app, Lpd. change (2 ^ 64) with (8 * 2 ^ 61). lia. }
  assert (Lle : len (le_bytes 8 (8 * len m)) = 8) by apply len_le_bytes.
  assert (R2 : rrep H (rmd_Update (rmd_Update c pd) (le_bytes 8 (8 * len m))) ((m ++ pd) ++ le_bytes 8 (8 * len m))).
  { apply rUpdate; auto using le_bytes_ok. lia. rewrite !len_app, Lpd, Lle. change (2 ^ 64) with (8 * 2 ^ 61). lia. }
  cbn [fst].
  assert (Em3 : (m ++ pd) ++ le_bytes 8 (8 * len m) = md_pad 64 8 le_bytes m).
  { unfold md_pad, pd. rewrite <- !app_assoc.
    change (Z.of_nat 64) with 64. change (Z.of_nat 8) with 8.
    assert (Ez : (- (len m + 1 + 8)) mod 64 = padn - 1).
    { rewrite Lm. unfold padn. clear - Lr. destruct (Z.ltb_spec (Z.of_nat (length r)) 56); dlia. }
    rewrite Ez. replace (Z.to_nat (padn - 1)) with (Z.to_nat padn - 1)%nat by lia. reflexivity. }
  rewrite Em3 in R2. set (c2 := rmd_Update (rmd_Update c pd) _) in *.
  destruct R2 as [(a2 & r2 & q2 & Em2 & La2 & Lr2 & St2 & _) _ _ OM2 _].
  assert (Lt : (Z.of_nat (length (md_pad 64 8 le_bytes m))) mod 64 = 0).
  { rewrite <- Em3, <- len_nat, !len_app, Lpd, Lle, Lm. unfold padn. clear - Lr.
    destruct (Z.ltb_spec (Z.of_nat (length r)) 56); dlia. }
  assert (r2 = []).
  { rewrite Em2, app_length, La2 in Lt. clear - Lt Lr2. destruct r2; auto. exfalso. cbn [length] in *. dlia. }
  subst r2. rewrite app_nil_r in Em2. rewrite St2, Em2.
  assert (O5 : ok5 (fold_left comp (groups 64 a2) H)).
  { apply (fold5_ok q2); auto. rewrite <- Em2. auto. }
  destruct O5 as [_ O5]. clear - O5. induction O5; cbn [flat_map]; auto. rewrite PUT_le by auto. congruence.
Qed.

Lemma rInit : rrep rmd_initial rmd_Init [].
Proof.
  assert (O : ok5 rmd_initial).
  { split; [reflexivity|]. unfold rmd_initial. repeat (apply Forall_cons || apply Forall_nil); unfold word_ok; lia. }
  constructor; auto; [|constructor]. exists [], [], 0%nat. repeat split; auto. cbn. lia.
Qed.
Lemma rWrites : forall H chunks c m, rrep H c m -> Forall bytes_ok chunks -> Forall (fun x => len x < 2 ^ 32) chunks ->
  len (m ++ concat chunks) < 2 ^ 64 -> rrep H (fold_left rmd_Update chunks c) (m ++ concat chunks).
Proof.
  induction chunks as [|x chunks IH]; intros c m R OC LC L.
  - cbn. rewrite app_nil_r. auto.
  - cbn [fold_left concat] in *. rewrite app_assoc in *. inversion_clear OC. inversion_clear LC.
    apply IH; auto. apply rUpdate; auto. rewrite len_app in L. pose proof (len_nonneg _ (concat chunks)). lia.
Qed.
Lemma rmd_any : forall chunks, Forall bytes_ok chunks -> Forall (fun x => len x < 2 ^ 32) chunks ->
  len (concat chunks) < 2 ^ 61 ->
  fst (rmd_Final (fold_left rmd_Update chunks rmd_Init)) = rmd_hash mK mKp (concat chunks).
Proof.
  intros. unfold rmd_hash. apply rFinal; auto.
  change (concat chunks) with ([] ++ concat chunks). apply rWrites; auto using rInit.
  cbn [app]. change (2 ^ 64) with (8 * 2 ^ 61). lia.
Qed.
