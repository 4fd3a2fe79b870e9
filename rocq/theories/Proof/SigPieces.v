(** DER signatures in pieces: which first pieces work. *)
From Verif Require Import Base.Bytes Base.BytesFacts Model.Conversion Model.Stream Model.Script Model.Signature
  Spec.Codecs Spec.Wire Spec.Objects Spec.Signature Proof.StreamFacts Proof.WitnessFacts Proof.IoProps Proof.SigFacts Proof.SigProps.
From Coq Require Import Lia.
Open Scope Z_scope.

Lemma skipn_repeat : forall k n (x : Z), skipn k (repeat x n) = repeat x (n - k).
Proof. induction k; intros [|n] x; cbn; auto. Qed.

Section Der.
Variables r s : list Z.
Hypothesis L1 : length r = 32%nat.
Hypothesis B1 : bytes_ok r.
Hypothesis L2 : length s = 32%nat.
Hypothesis B2 : bytes_ok s.
Notation R := (int_len r 33).
Notation L := (int_len s 33).
Notation off := (4 + R + 2).

(** The array for s after the bytes [b] of the number. *)
Definition put (b : list Z) : list Z :=
  match b with [] => zeros 32 | _ => skipn 1 (zeros (33 - Z.to_nat L) ++ b) ++ zeros (Z.to_nat L - length b) end.
Lemma L_range : 1 <= L <= 33.
Proof. apply (sbody_spec s L2 B2). Qed.
Lemma R_range : 1 <= R <= 33.
Proof. apply (sbody_spec r L1 B1). Qed.
Lemma body_len : length (sbody s) = Z.to_nat L.
Proof. destruct (sbody_spec s L2 B2) as (_ & H & _). unfold len in H. lia. Qed.
Lemma whole : skipn 1 (zeros (33 - Z.to_nat L) ++ sbody s) = s.
Proof.
  pose proof L_range. destruct (sbody_spec s L2 B2) as (_ & _ & _ & X). destruct (Z.eq_dec L 33) as [E|E].
  - unfold sbody. rewrite E. reflexivity.
  - specialize (X ltac:(lia)). replace (33 - Z.to_nat L)%nat with (S (32 - Z.to_nat L)) by lia. change (zeros (S (32 - Z.to_nat L))) with (0 :: zeros (32 - Z.to_nat L)). cbn [app skipn]. symmetry. exact X.
Qed.
Lemma read_part : forall b1 b2 f k g, sbody s = b1 ++ b2 -> (forall a p c, f a p c = aset a (p - off + 32 - L) c) ->
  sig_gate (L =? 33) (off + 1) (fun c g => (g, c =? 0)) (fun g pos st =>
    let! q := read_loop_o (off + L) pos f (zeros 32) st in k q g) g off b1 = k (put b1, off + len b1, []) g.
Proof.
  intros b1 b2 f k g E F. pose proof L_range as LR. pose proof body_len as BL. rewrite E, app_length in BL. destruct b1 as [|c u].
  - cbn [sig_gate read_loop_o bind put]. rewrite len_nil, Z.add_0_r. reflexivity.
  - cbn [length] in BL. destruct (Z.eqb_spec L 33) as [Q|Q].
    + assert (c = 0) by (unfold sbody in E; rewrite Q in E; cbn in E; congruence). subst c. rewrite gate_take by (auto; lia). cbn [fst].
      change (zeros 32) with ([] ++ zeros 32). rewrite (fill_loop (off + 1) _ f).
      2: { intros. rewrite F, Q. f_equal. lia. }
      2: { rewrite len_nil. lia. }
      2: { rewrite len_nil, len_zeros. lia. }
      cbn [bind]. replace (Nat.min _ _) with (length u) by lia. rewrite firstn_all, skipn_all. unfold put. rewrite Q. change (33 - Z.to_nat 33)%nat with 0%nat. cbn [zeros repeat app skipn].
      rewrite len_cons. f_equal. f_equal. f_equal; [|unfold len; lia]. apply f_equal. cbn [length]. match goal with |- skipn _ ?z = _ => change z with (repeat 0 32) end. rewrite skipn_repeat. unfold zeros. reflexivity.
    + rewrite gate_skip by auto. replace (zeros 32) with (zeros (32 - Z.to_nat L) ++ zeros (Z.to_nat L)).
      2:{ unfold zeros. rewrite <- repeat_app. f_equal. lia. }
      rewrite (fill_loop (off - (32 - L)) _ f).
      2: { intros. rewrite F. f_equal. lia. }
      2: { rewrite len_zeros. lia. }
      2: { rewrite !len_zeros. lia. }
      cbn [bind]. replace (Nat.min _ _) with (length (c :: u)) by (cbn [length]; lia). rewrite firstn_all, skipn_all. unfold put.
      replace (33 - Z.to_nat L)%nat with (S (32 - Z.to_nat L)) by lia. change (zeros (S (32 - Z.to_nat L))) with (0 :: zeros (32 - Z.to_nat L)). cbn [app skipn].
      rewrite <- app_assoc. unfold zeros. rewrite skipn_repeat. reflexivity.
Qed.

(** The state when the bytes of [b1] have been read. *)
Definition result (b1 : list Z) (t i : Z) : outcome (signature * Z * list Z) :=
  if negb (int_len (put b1) 33 =? L) then Ok (sig_fail (mkSig r (put b1) t R L i INCOMPLETE 0), off + len b1, [])
  else Ok (mkSig r (put b1) t R L i (if off + len b1 =? off + L then DONE else INCOMPLETE) (off + len b1), off + len b1, []).
Lemma first_piece : forall g0 t b1 b2, sg_status g0 = DONE -> 0 <= t <= 70 -> sbody s = b1 ++ b2 ->
  sig_parse g0 (48 :: t :: 2 :: R :: sbody r ++ 2 :: L :: b1) = result b1 t (sg_index g0).
Proof.
  intros g0 t b1 b2 ST T EB. set (bb := b1). unfold sig_parse. rewrite ST. pose proof R_range as R1. pose proof L_range as R2.
  unfold sig_parse_body. cbn [sg_parsed].
  rewrite gate_take by (auto; lia). cbn [fst].
  rewrite gate_take; [|auto|lia|cbn [snd]; destruct (Z.ltb_spec 70 t); auto; lia]. cbn [fst].
  rewrite gate_take by (auto; lia). cbn [fst].
  rewrite gate_take; [|auto|lia|cbn [snd]; destruct (Z.ltb_spec 33 (int_len r 33)); auto; lia]. cbn [fst].
  change (0 + 1 + 1 + 1 + 1) with 4. unfold set_t0, set_t1. cbn [sg_r sg_s sg_t0 sg_t1 sg_t2 sg_index sg_status sg_parsed].
  transitivity (
   sig_gate (int_len r 33 =? 33) (4 + 1) (fun c g => (g, c =? 0)) (fun g pos st =>
    let! q := read_loop_o (4 + int_len r 33) pos (fun a p c => aset a (p - 4 + 32 - int_len r 33) c) (zeros 32) st in
    (fun q g => let '(r1, pos1, st1) := q in
      if negb (sig_rlen (set_r g r1) =? sg_t1 (set_r g r1)) then Ok (sig_fail (set_r g r1), pos1 - sg_parsed g, st1)
      else sig_parse_s (set_r g r1) pos1 st1) q g)
     (mkSig (zeros 32) (zeros 32) t (int_len r 33) 0 (sg_index g0) INCOMPLETE 0) 4
     (sbody r ++ 2 :: int_len s 33 :: bb)).
  { unfold sig_gate. destruct (sbody r ++ 2 :: int_len s 33 :: bb) as [|c u]; [reflexivity|].
    destruct (_ && _); [|reflexivity]. destruct (c =? 0); reflexivity. }
  rewrite read_int; auto. cbn beta iota.
  unfold sig_rlen, set_r. cbn [sg_r sg_s sg_t0 sg_t1 sg_t2 sg_index sg_status sg_parsed].
  rewrite Z.eqb_refl. cbn [negb].
  unfold sig_parse_s. cbn [sg_r sg_s sg_t0 sg_t1 sg_t2 sg_index sg_status sg_parsed].
  rewrite gate_take by (auto; lia). cbn [fst].
  rewrite gate_take; [|auto|lia|cbn [snd]; destruct (Z.ltb_spec 33 (int_len s 33)); auto; lia]. cbn [fst].
  unfold set_t2. cbn [sg_r sg_s sg_t0 sg_t1 sg_t2 sg_index sg_status sg_parsed].
  set (off := 4 + int_len r 33 + 2). replace (4 + int_len r 33 + 1 + 1) with off by (unfold off; lia).
  transitivity (
   sig_gate (int_len s 33 =? 33) (off + 1) (fun c g => (g, c =? 0)) (fun g pos st =>
    let! q := read_loop_o (off + int_len s 33) pos (fun a p c => aset a (p - off + 32 - int_len s 33) c) (zeros 32) st in
    (fun q g => let '(s1, pos1, st1) := q in
      if negb (sig_slen (set_s g s1) =? sg_t2 (set_s g s1)) then Ok (sig_fail (set_s g s1), pos1 - sg_parsed g, st1)
    else Ok (mkSig (sg_r g) s1 (sg_t0 g) (sg_t1 g) (sg_t2 g) (sg_index g)
               (if pos1 =? off + int_len s 33 then DONE else INCOMPLETE) pos1,
             pos1 - sg_parsed g, st1)) q g)
     (mkSig r (zeros 32) t (int_len r 33) (int_len s 33) (sg_index g0) INCOMPLETE 0) off
     bb).
  { assert (LL : forall st pos, read_loop_o (4 + int_len r 33 + 2 + int_len s 33) pos
       (fun a p c => aset a (p - 4 - int_len r 33 - 2 - int_len s 33 + 32) c) (zeros 32) st =
       read_loop_o (off + int_len s 33) pos (fun a p c => aset a (p - off + 32 - int_len s 33) c) (zeros 32) st).
    { intros st pos. replace (4 + int_len r 33 + 2 + int_len s 33) with (off + int_len s 33) by (unfold off; lia).
      generalize (zeros 32). revert pos. induction st as [|c st IH]; intros pos z; cbn [read_loop_o]; auto.
      destruct (pos <? off + int_len s 33); auto.
      replace (pos - 4 - int_len r 33 - 2 - int_len s 33 + 32) with (pos - off + 32 - int_len s 33) by (unfold off; lia).
      destruct (aset z _ c); cbn [bind]; auto. }
    replace (4 + int_len r 33 + 3) with (off + 1) by (unfold off; lia).
    assert (KK : forall g pos st, sg_t1 g = int_len r 33 -> sg_t2 g = int_len s 33 -> sg_s g = zeros 32 ->
      (let! q := read_loop_o (4 + int_len r 33 + 2 + sg_t2 g) pos
         (fun a p c => aset a (p - 4 - sg_t1 g - 2 - sg_t2 g + 32) c) (sg_s g) st in
       let '(s1, pos1, st1) := q in
       let g1 := set_s g s1 in
       if negb (sig_slen g1 =? sg_t2 g1) then Ok (sig_fail g1, pos1 - sg_parsed g, st1)
       else Ok (mkSig (sg_r g1) (sg_s g1) (sg_t0 g1) (sg_t1 g1) (sg_t2 g1) (sg_index g1)
               (if pos1 =? 4 + int_len r 33 + 2 + sg_t2 g then DONE else INCOMPLETE) pos1, pos1 - sg_parsed g, st1)) =
      (let! q := read_loop_o (off + int_len s 33) pos (fun a p c => aset a (p - off + 32 - int_len s 33) c) (zeros 32) st in
       let '(s1, pos1, st1) := q in
       if negb (sig_slen (set_s g s1) =? sg_t2 (set_s g s1)) then Ok (sig_fail (set_s g s1), pos1 - sg_parsed g, st1)
       else Ok (mkSig (sg_r g) s1 (sg_t0 g) (sg_t1 g) (sg_t2 g) (sg_index g)
               (if pos1 =? off + int_len s 33 then DONE else INCOMPLETE) pos1, pos1 - sg_parsed g, st1))).
    { intros g pos st E1 E2 E3. rewrite E1, E2, E3, LL.
      destruct (read_loop_o _ _ _ _ _) as [[[s1 pos1] st1]|]; cbn [bind]; auto.
      cbv zeta. replace (4 + int_len r 33 + 2 + int_len s 33) with (off + int_len s 33) by (unfold off; lia).
      destruct (negb _); auto. unfold set_s; cbn [sg_r sg_s sg_t0 sg_t1 sg_t2 sg_index]. rewrite E1, E2. reflexivity. }
    unfold sig_gate. destruct bb as [|c u].
    - apply KK; auto.
    - destruct (_ && _); [|apply KK; auto]. destruct (c =? 0); [apply KK; auto|reflexivity]. }
  subst bb. unfold off. rewrite (read_part b1 b2) by auto. cbn beta iota.
  unfold sig_slen, set_s, result. cbn [sg_r sg_s sg_t0 sg_t1 sg_t2 sg_index sg_status sg_parsed].
  rewrite !Z.sub_0_r. reflexivity.
Qed.

(** ** The bytes after the first piece *)
(** [pre]: the bytes of s already there; [t2]: those to come. *)
Definition inv (pre t2 : list Z) : Prop :=
  s = pre ++ t2 /\ (L = 33 -> len t2 < L) /\ len t2 <= L /\
  forall u v, t2 = u ++ v -> int_len (pre ++ u ++ zeros (length v)) 33 = L.
Definition state (pre t2 : list Z) (t i : Z) : signature :=
  mkSig r (pre ++ zeros (length t2)) t R L i (match t2 with [] => DONE | _ => INCOMPLETE end) (off + L - len t2).
Lemma inv_step : forall pre u v, inv pre (u ++ v) -> inv (pre ++ u) v.
Proof.
  intros pre u v (E & A & B & C). rewrite len_app in A, B. pose proof (len_nonneg _ u). split; [rewrite <- app_assoc; exact E|].
  split; [intros Q; specialize (A Q); lia|]. split; [lia|]. intros x y EV. rewrite <- app_assoc. rewrite app_assoc with (l := u). apply C. rewrite EV, app_assoc. reflexivity.
Qed.
Lemma continue : forall pre u v w t i, inv pre (u ++ v) -> u ++ v <> [] -> v = [] \/ w = [] ->
  sig_parse (state pre (u ++ v) t i) (u ++ w) = Ok (state (pre ++ u) v t i, len u, w).
Proof.
  intros pre u v w t i I NE VW. pose proof I as (E & A & B & C). pose proof L_range as LR. pose proof R_range as RR.
  assert (LS : len pre + len (u ++ v) = 32) by (rewrite <- len_app, <- E; unfold len; lia). pose proof (len_nonneg _ u). pose proof (len_nonneg _ v).
  rewrite len_app in A, B, LS.
  unfold sig_parse, state. destruct (u ++ v) as [|c0 t0] eqn:UV; [congruence|]. cbn [sg_status]. rewrite <- UV. rewrite app_length, len_app.
  assert (RO : int_len r 33 =? R = true) by apply Z.eqb_refl.
  unfold sig_parse_body. cbn [sg_parsed].
  do 4 (rewrite gate_skip by (right; lia)). cbn [sg_t1]. rewrite gate_skip by (right; lia).
  rewrite read_loop_o_stop by (cbn [sg_t1]; lia). cbn [bind sg_r]. unfold set_r, sig_rlen. cbn [sg_r sg_t1 sg_s sg_t0 sg_t2 sg_index sg_status sg_parsed]. rewrite RO. cbn [negb].
  unfold sig_parse_s. cbn [sg_r sg_t1 sg_s sg_t0 sg_t2 sg_index sg_status sg_parsed].
  do 2 (rewrite gate_skip by (right; cbn [sg_t1]; lia)). cbn [sg_t1 sg_t2]. rewrite gate_skip.
  2:{ destruct (Z.eqb_spec L 33) as [Q|Q]; auto. right. specialize (A Q). lia. }
  cbn [sg_t1 sg_t2 sg_s].
  rewrite (fill_loop (4 + R + 2 + L - 32)).
  2:{ intros. f_equal. lia. }
  2:{ lia. }
  2:{ rewrite len_zeros. unfold len in *. lia. }
  cbn [bind].
  assert (K : Nat.min (length (u ++ w)) (Z.to_nat (4 + R + 2 + L - (off + L - (len u + len v)))) = length u).
  { rewrite app_length. unfold len. destruct VW; subst; cbn [length]; lia. }
  rewrite K. rewrite firstn_app_len, skipn_app_len by auto. 
  assert (SZ : skipn (length u) (zeros (length u + length v)) = zeros (length v)) by (unfold zeros; rewrite skipn_repeat; f_equal; lia).
  rewrite SZ.
  unfold set_s, sig_slen. cbn [sg_r sg_t1 sg_s sg_t0 sg_t2 sg_index sg_status sg_parsed]. rewrite (C u v) by (symmetry; exact UV). rewrite Z.eqb_refl. cbn [negb].
  rewrite <- app_assoc. f_equal. f_equal. f_equal.
  - f_equal; [|unfold len; lia]. destruct v.
    + rewrite len_nil. match goal with |- (if ?a =? ?b then _ else _) = _ => replace (a =? b) with true; auto end. symmetry. apply Z.eqb_eq. unfold len. lia.
    + rewrite len_cons. pose proof (len_nonneg _ v). match goal with |- (if ?a =? ?b then _ else _) = _ => replace (a =? b) with false; auto end. symmetry. apply Z.eqb_neq. unfold len. lia.
  - unfold len. lia.
Qed.
Lemma split2 : forall (t2 rest c d : list Z), t2 ++ rest = c ++ d -> exists u v w, t2 = u ++ v /\ c = u ++ w /\ (v = [] \/ w = []).
Proof.
  intros t2 rest c. revert t2. induction c as [|x c IH]; intros t2 d E.
  - exists [], t2, []. auto.
  - destruct t2 as [|y t2].
    + exists [], [], (x :: c). auto.
    + cbn [app] in E. assert (y = x) by congruence. assert (t2 ++ rest = c ++ d) by congruence. subst y. destruct (IH _ _ H0) as (u & v & w & E1 & E2 & E3).
      exists (x :: u), v, w. subst. auto.
Qed.
Lemma pieces : forall cs pre t2 rest t i, inv pre t2 -> t2 <> [] -> concat cs = t2 ++ rest ->
  feed sig_parse sg_status (state pre t2 t i) cs = Ok (state s [] t i, len t2, rest).
Proof.
  induction cs as [|c cs IH]; intros pre t2 rest t i I NE E.
  - cbn in E. destruct t2; [congruence|discriminate].
  - cbn [concat] in E. destruct (split2 t2 rest c (concat cs)) as (u & v & w & -> & -> & VW); [congruence|].
    cbn [feed]. rewrite continue by auto. cbn [bind]. destruct v as [|x v].
    + cbn [state sg_status]. rewrite app_nil_r in *. destruct I as (ES & _). rewrite <- ES. rewrite <- app_assoc in E. apply app_inv_head in E. rewrite E. reflexivity.
    + destruct VW as [Q|Q]; [discriminate|]. subst w. rewrite app_nil_r in E. rewrite <- app_assoc in E. apply app_inv_head in E.
      cbn [state sg_status]. change (mkSig r _ t R L i INCOMPLETE _) with (state (pre ++ u) (x :: v) t i). rewrite (IH _ _ rest); [|apply inv_step; auto|discriminate|auto].
      cbn [bind app]. rewrite len_app. reflexivity.
Qed.

(** ** The first piece *)
Lemma lock : forall pre u w n, Forall byte_ok pre -> (exists x, In x pre /\ x <> 0) -> int_len (pre ++ u) n = int_len (pre ++ w) n.
Proof.
  induction pre as [|b t IH]; intros u w n F (x & I & X); [destruct I|]. apply Forall_cons_iff in F. destruct F as [B F]. unfold byte_ok in B.
  cbn [app int_len]. destruct (Z.ltb_spec 0 b); [destruct (b <? 128); auto|]. destruct I as [<-|I]; [lia|]. apply IH; eauto.
Qed.
Lemma all_zero : forall l : list Z, (forall x, In x l -> x = 0) -> l = zeros (length l).
Proof. induction l as [|x l IH]; intros H; cbn; auto. rewrite (H x) by (left; auto). f_equal. apply IH. intros. apply H. right; auto. Qed.
Lemma put_zero : forall b1 b2, sbody s = b1 ++ b2 -> (forall x, In x b1 -> x = 0) -> put b1 = zeros 32.
Proof.
  intros b1 b2 E H. apply all_zero in H. pose proof L_range. pose proof body_len as BL. rewrite E, app_length in BL. unfold put. destruct b1 as [|x b1]; auto. rewrite H.
  unfold zeros at 1 2 3. rewrite <- repeat_app, skipn_repeat, <- repeat_app. unfold zeros. f_equal. rewrite repeat_length. cbn [length] in *. lia.
Qed.
Lemma put_inv : forall b1 b2, sbody s = b1 ++ b2 -> b2 <> [] -> L = 1 \/ (exists x, In x b1 /\ x <> 0) ->
  exists pre, inv pre b2 /\ put b1 = pre ++ zeros (length b2).
Proof.
  intros b1 b2 E NE H. pose proof L_range as LR. pose proof body_len as BL. rewrite E, app_length in BL. pose proof whole as W. rewrite E in W.
  assert (S1 : s = skipn 1 (zeros (33 - Z.to_nat L) ++ b1) ++ b2).
  { rewrite <- W at 1. rewrite app_assoc, skipn_app. f_equal. rewrite app_length. unfold zeros. rewrite repeat_length.
    replace (1 - _)%nat with 0%nat; auto. destruct H as [H|(x & I & _)]; [lia|]. destruct b1; [destruct I|cbn [length]; lia]. }
  exists (skipn 1 (zeros (33 - Z.to_nat L) ++ b1)). split.
  - split; [exact S1|]. destruct H as [H|(x & I & X)].
    + split; [lia|]. split; [unfold len; lia|]. intros u v EV. destruct b2 as [|y b2]; [congruence|]. cbn [length] in BL. destruct b2; [|cbn [length] in BL; lia].
      destruct b1; [|cbn [length] in BL; lia]. destruct u as [|y' u].
      * cbn [app] in EV. subst v. rewrite H. reflexivity.
      * cbn [app] in EV. assert (u = [] /\ v = []) as [-> ->]. { destruct u; [|discriminate]. destruct v; [auto|discriminate]. } assert (y' = y) by congruence. subst y'.
        change ([y] ++ zeros (length (@nil Z))) with [y]. rewrite <- S1. reflexivity.
    + split; [|split]. 1,2: unfold len; destruct b1; [destruct I|cbn [length] in BL]; lia.
      intros u v _. rewrite (lock _ _ b2).
      * rewrite <- S1. reflexivity.
      * rewrite S1 in B2; apply bytes_ok_app in B2; apply B2.
      * exists x. split; auto. destruct (Z.eq_dec L 33) as [Q|Q].
        -- rewrite Q. change (zeros (33 - Z.to_nat 33)) with (@nil Z). cbn [app]. destruct b1 as [|y b1]; [destruct I|].
           cbn [skipn]. destruct I as [I|I]; auto. exfalso. apply X. subst y. unfold sbody in E. rewrite Q in E. cbn in E. congruence.
        -- replace (33 - Z.to_nat L)%nat with (S (32 - Z.to_nat L)) by lia. change (zeros (S (32 - Z.to_nat L))) with (0 :: zeros (32 - Z.to_nat L)). cbn [app skipn]. apply in_or_app. auto.
  - unfold put. destruct b1 as [|y b1].
    + destruct H as [H|(x & [] & _)]. rewrite H in *. cbn [length] in BL. replace (length b2) with 1%nat by lia. reflexivity.
    + f_equal. f_equal. lia.
Qed.
Lemma good_first : forall g0 t b1 b2 cs rest, sg_status g0 = DONE -> 0 <= t <= 70 -> sbody s = b1 ++ b2 -> b2 <> [] ->
  L = 1 \/ (exists x, In x b1 /\ x <> 0) -> concat cs = b2 ++ rest ->
  feed sig_parse sg_status g0 ((48 :: t :: 2 :: R :: sbody r ++ 2 :: L :: b1) :: cs) = Ok (state s [] t (sg_index g0), off + L, rest).
Proof.
  intros g0 t b1 b2 cs rest ST T E NE H C. cbn [feed]. rewrite (first_piece g0 t b1 b2) by auto. destruct (put_inv b1 b2 E NE H) as (pre & I & P).
  pose proof I as (_ & _ & _ & J). pose proof body_len as BL. rewrite E, app_length in BL. pose proof L_range.
  assert (LB : 0 < len b2) by (destruct b2; [congruence|rewrite len_cons; pose proof (len_nonneg _ b2); lia]).
  unfold result. rewrite P. replace (int_len (pre ++ zeros (length b2)) 33) with L by (symmetry; apply (J [] b2); auto). rewrite Z.eqb_refl. cbn [negb bind sg_status].
  replace (off + len b1 =? off + L) with false by (symmetry; apply Z.eqb_neq; unfold len in *; lia).
  replace (mkSig r (pre ++ zeros (length b2)) t R L (sg_index g0) INCOMPLETE (off + len b1)) with (state pre b2 t (sg_index g0)).
  2:{ unfold state. f_equal; [destruct b2; congruence|unfold len; lia]. }
  rewrite (pieces cs pre b2 rest) by auto. cbn [bind app]. do 2 f_equal. f_equal. unfold len in *; lia.
Qed.
Lemma bad_first : forall g0 t b1 b2 cs, sg_status g0 = DONE -> 0 <= t <= 70 -> sbody s = b1 ++ b2 ->
  L <> 1 -> (forall x, In x b1 -> x = 0) ->
  failed sg_status (feed sig_parse sg_status g0 ((48 :: t :: 2 :: R :: sbody r ++ 2 :: L :: b1) :: cs)).
Proof.
  intros g0 t b1 b2 cs ST T E NL H. cbn [feed]. rewrite (first_piece g0 t b1 b2) by auto. unfold result. rewrite (put_zero b1 b2) by auto.
  change (int_len (zeros 32) 33) with 1. replace (1 =? L) with false by (symmetry; apply Z.eqb_neq; lia). cbn [negb bind sig_fail sg_status].
  do 3 eexists. split; [reflexivity|reflexivity].
Qed.
End Der.

Lemma der_pieces : forall g0 x y d rest c cs, sg_status g0 = DONE -> der_sig x y d -> 0 <= x < 2^256 -> 0 <= y < 2^256 ->
  concat (c :: cs) = d ++ rest ->
  (der_start d (length c) -> exists g, feed sig_parse sg_status g0 (c :: cs) = Ok (g, len d, rest) /\
     sig_parse g0 (d ++ rest) = Ok (g, len d, rest) /\ sg_status g = DONE /\ sig_holds g x y) /\
  (~ der_start d (length c) -> failed sg_status (feed sig_parse sg_status g0 (c :: cs))).
Proof.
  intros g0 x y d rest c cs ST H X Y C. pose proof (der_sig_bytes x y d H X Y) as BD. cbn [concat] in C.
  destruct (der_sig_of x y d H X Y) as (r & s & L1 & B1 & L2 & B2 & <- & <- & ->).
  destruct (sbody_spec r L1 B1) as (R1 & E1 & _). destruct (sbody_spec s L2 B2) as (R2 & E2 & _).
  set (t := 4 + len (sbody r) + len (sbody s)).
  set (hd0 := 48 :: t :: 2 :: int_len r 33 :: sbody r ++ [2; int_len s 33]).
  assert (ED : der_of r s = hd0 ++ sbody s).
  { unfold hd0, der_of. rewrite E1, E2. cbn [app]. rewrite <- !app_assoc. unfold t. rewrite E1, E2. reflexivity. }
  assert (LH : length hd0 = (6 + Z.to_nat (int_len r 33))%nat).
  { unfold hd0. cbn [length]. rewrite app_length. cbn [length]. unfold len in E1. lia. }
  assert (N3 : nth 3 (der_of r s) 0 = int_len r 33) by (rewrite ED; reflexivity).
  assert (N5 : nth (5 + Z.to_nat (int_len r 33)) (der_of r s) 0 = int_len s 33).
  { rewrite ED, app_nth1 by lia. unfold hd0. change (48 :: t :: 2 :: int_len r 33 :: sbody r ++ [2; int_len s 33]) with ([48; t; 2; int_len r 33] ++ sbody r ++ [2; int_len s 33]).
    rewrite app_nth2 by (cbn [length]; lia). rewrite app_nth2 by (cbn [length]; unfold len in E1; lia).
    replace (_ - _ - _)%nat with 1%nat by (cbn [length]; unfold len in E1; lia). reflexivity. }
  assert (T : 0 <= t <= 70) by (unfold t; lia).
  assert (P : sig_parse g0 (der_of r s ++ rest) = Ok (state r s s [] t (sg_index g0), len (der_of r s), rest)).
  { change (der_of r s ++ rest) with (with_total (der_of r s) t ++ rest). rewrite sig_parse_der by auto. unfold state. cbn [length zeros repeat]. rewrite app_nil_r, E1, E2, der_of_len, E1, E2 by auto.
    rewrite len_nil. do 2 f_equal. f_equal. f_equal. lia. }
  assert (SH : sig_holds (state r s s [] t (sg_index g0)) (be_val 256 r) (be_val 256 s)).
  { unfold state. cbn [length zeros repeat]. rewrite app_nil_r. repeat split; auto. }
  assert (GOOD : feed sig_parse sg_status g0 (c :: cs) = Ok (state r s s [] t (sg_index g0), len (der_of r s), rest) ->
    exists g, feed sig_parse sg_status g0 (c :: cs) = Ok (g, len (der_of r s), rest) /\
     sig_parse g0 (der_of r s ++ rest) = Ok (g, len (der_of r s), rest) /\ sg_status g = DONE /\ sig_holds g (be_val 256 r) (be_val 256 s)).
  { intros F. eexists. split; [exact F|]. split; [exact P|]. split; [reflexivity|exact SH]. }
  destruct (split2 (der_of r s) rest c (concat cs)) as (u & v & w & EU & EC & VW); [congruence|].
  destruct (Nat.le_gt_cases (length (der_of r s)) (length c)) as [LC|LC].
  { split; [intros _; apply GOOD|intros N; exfalso; apply N; left; auto].
    assert (v = []).
    { destruct VW as [V|V]; auto. rewrite EU, EC, V, app_nil_r, app_length in LC. destruct v; auto. cbn [length] in LC. lia. }
    subst v. rewrite app_nil_r in EU. subst u. rewrite EC, <- app_assoc in C. apply app_inv_head in C. subst rest.
    cbn [feed]. rewrite EC.
    assert (PW : sig_parse g0 (der_of r s ++ w) = Ok (state r s s [] t (sg_index g0), len (der_of r s), w)).
    { clear -ST T L1 L2 B1 B2 E1 E2. change (der_of r s ++ w) with (with_total (der_of r s) t ++ w). rewrite sig_parse_der by auto. unfold state. cbn [length zeros repeat]. rewrite app_nil_r, E1, E2, der_of_len, E1, E2 by auto.
      rewrite len_nil. do 2 f_equal. f_equal. f_equal. lia. }
    rewrite PW. reflexivity. }
  assert (w = []).
  { destruct VW as [V|V]; auto. rewrite EU, EC, V, app_nil_r, app_length in LC. lia. }
  subst w. rewrite app_nil_r in EC. subst u.
  destruct (Nat.le_gt_cases (length hd0) (length c)) as [LK|LK].
  2:{ assert (F : failed sg_status (feed sig_parse sg_status g0 (c :: cs))).
      { assert (BC : bytes_ok c) by (rewrite EU in BD; apply bytes_ok_app in BD; apply BD).
        destruct (sig_parse_needs g0 c) as (g & n & q & E & N); auto.
        cbn [feed]. rewrite E. cbn [bind]. destruct (sg_status g) eqn:SG.
        3:{ do 3 eexists. split; [reflexivity|auto]. }
        all: exfalso; specialize (N ltac:(discriminate)).
        all: destruct (Nat.le_gt_cases (length c) 3) as [L3|L3].
        all: try (rewrite nth_overflow in N by lia; unfold len in N; lia).
        all: rewrite EU, app_nth1 in N3 by lia; rewrite N3 in N; unfold len in N; lia. }
      split; [|auto]. intros D. exfalso. unfold der_start in D. rewrite N3 in D. lia. }
  assert (exists b1, c = hd0 ++ b1 /\ sbody s = b1 ++ v) as (b1 & -> & EB).
  { exists (skipn (length hd0) c). assert (EF : firstn (length hd0) c = hd0).
    { transitivity (firstn (length hd0) (c ++ v)). 
      - rewrite firstn_app. replace (length hd0 - length c)%nat with 0%nat by lia. cbn [firstn]. rewrite app_nil_r. reflexivity.
      - rewrite <- EU, ED. apply firstn_app_len. reflexivity. }
    assert (c = hd0 ++ skipn (length hd0) c) as EC by (rewrite <- EF at 1; symmetry; apply firstn_skipn).
    split; auto. rewrite EC, ED, <- app_assoc in EU. apply app_inv_head in EU. exact EU. }
  assert (V : v <> []). { intros ->. rewrite EU, app_nil_r in LC. lia. }
  assert (CV : concat cs = v ++ rest). { rewrite EU, <- (app_assoc (hd0 ++ b1)) in C. apply app_inv_head in C. exact C. }
  assert (EH : hd0 ++ b1 = 48 :: t :: 2 :: int_len r 33 :: sbody r ++ 2 :: int_len s 33 :: b1).
  { unfold hd0. cbn [app]. rewrite <- app_assoc. reflexivity. }
  assert (DL : len (der_of r s) = 4 + int_len r 33 + 2 + int_len s 33) by (rewrite der_of_len, E1, E2 by auto; lia).
  assert (NI : forall i, (i < length b1)%nat -> nth (6 + Z.to_nat (int_len r 33) + i) (der_of r s) 0 = nth i b1 0).
  { intros i I. rewrite EU, <- app_assoc, app_nth2 by lia. rewrite app_nth1 by lia. f_equal. lia. }
  rewrite app_length in LC. split.
  - intros [D|[_ D]]; [rewrite app_length in D; lia|]. rewrite N3, N5 in D. apply GOOD. rewrite EH, DL. apply (good_first r s L1 B1 L2 B2 g0 t b1 v); auto.
    destruct D as [D|(i & I & D)]; auto. right. exists (nth i (der_of r s) 0). split; auto.
    replace i with (6 + Z.to_nat (int_len r 33) + (i - length hd0))%nat by lia. rewrite app_length in I. rewrite NI by lia. apply nth_In. lia.
  - intros N. rewrite EH. apply (bad_first r s L1 B1 L2 B2 g0 t b1 v); auto.
    + intros Q. apply N. right. rewrite N3, N5. split; [rewrite app_length; lia|auto].
    + intros z I. destruct (Z.eq_dec z 0) as [|Q]; auto. exfalso. apply N. right. rewrite N3. split; [rewrite app_length; lia|]. right.
      destruct (In_nth b1 z 0 I) as (i & I1 & I2). exists (6 + Z.to_nat (int_len r 33) + i)%nat. split; [rewrite app_length; lia|]. rewrite NI by auto. congruence.
Qed.
