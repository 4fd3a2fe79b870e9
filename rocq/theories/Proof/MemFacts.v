(** Proofs about the memory model: scripts never free twice. *)
From Coq Require Import Lia.
From Verif Require Import Base.Bytes Base.BytesFacts Model.Conversion Model.Stream Model.Script Model.Memory.
From Verif Require Import Spec.Memory Proof.StreamFacts.
Open Scope Z_scope.

Lemma live_iff h q : is_live h q = true <-> In q (h_live h).
Proof.
  unfold is_live. rewrite existsb_exists. split.
  - intros (x & I & E). apply Nat.eqb_eq in E. subst. exact I.
  - intros I. exists q. split; [exact I|apply Nat.eqb_refl].
Qed.

Definition wf (h : heap) : Prop := forall q, In q (h_live h) -> (q < h_next h)%nat.
Definition owned (h : heap) (p : option nat) : Prop := forall q, p = Some q -> In q (h_live h).

(** A step that touches only what [p] points to and leaves [p'] behind. *)
Definition moved (h : heap) (p : option nat) (h' : heap) (p' : option nat) : Prop :=
  wf h' /\ (h_next h <= h_next h')%nat /\
  (forall q, In q (h_live h) -> p <> Some q -> In q (h_live h')) /\
  (forall q, p' = Some q -> In q (h_live h') /\ (p = Some q \/ (h_next h <= q)%nat)).

Lemma moved_refl h p : wf h -> owned h p -> moved h p h p.
Proof. intros W O. repeat split; auto. Qed.
Lemma moved_owned h p h' p' : moved h p h' p' -> owned h' p'.
Proof. intros (_ & _ & _ & M) q E. apply M, E. Qed.
Lemma moved_wf h p h' p' : moved h p h' p' -> wf h'.
Proof. intros M. apply M. Qed.
Lemma moved_keep h p h' p' q : moved h p h' p' -> In q (h_live h) -> p <> Some q -> In q (h_live h').
Proof. intros (_ & _ & K & _). apply K. Qed.
Lemma moved_trans h p h1 p1 h2 p2 : wf h -> moved h p h1 p1 -> moved h1 p1 h2 p2 -> moved h p h2 p2.
Proof.
  intros W (W1 & N1 & L1 & P1) (W2 & N2 & L2 & P2). split; [exact W2|]. split; [lia|]. split.
  - intros q I D. apply L2; [apply L1; auto|]. intro E. destruct (P1 q E) as [_ [C|C]]; [congruence|].
    specialize (W q I). lia.
  - intros q E. destruct (P2 q E) as [I [C|C]]; (split; [exact I|]); [|right; lia].
    destruct (P1 q C) as [_ [D|D]]; auto.
Qed.
Lemma moved_alloc h p : wf h -> moved h p (fst (halloc h)) (snd (halloc h)).
Proof.
  intros W. unfold halloc. cbn [fst snd]. split; [|split; [|split]]; cbn [h_next h_live].
  - intros q [<-|I]; [cbn; lia|]. specialize (W q I). cbn. lia.
  - lia.
  - intros q I _. right. exact I.
  - intros q E. injection E as <-. split; [left; reflexivity|right; lia].
Qed.
(** Forgetting a pointer loses the block. *)
Lemma moved_forget h p : wf h -> moved h p h None.
Proof. intros W. repeat split; auto; discriminate. Qed.
Lemma hfree_ok h p : wf h -> owned h p -> exists h', hfree h p = Ok h' /\ moved h p h' None.
Proof.
  intros W O. destruct p as [q|]; cbn [hfree].
  - rewrite (proj2 (live_iff h q)) by (apply O; reflexivity). eexists. split; [reflexivity|].
    split; [|split; [|split]]; cbn [h_next h_live]; try discriminate; try lia.
    + intros x I. apply filter_In in I. apply W, I.
    + intros x I D. apply filter_In. split; [exact I|]. apply Bool.negb_true_iff, Nat.eqb_neq. congruence.
  - exists h. split; [reflexivity|apply moved_forget, W].
Qed.
Lemma huse_ok h p : owned h p -> p <> None -> huse h p = Ok tt.
Proof.
  intros O N. destruct p as [q|]; [|congruence]. cbn [huse]. rewrite (proj2 (live_iff h q)); [reflexivity|apply O; reflexivity].
Qed.
Lemma hrealloc_ok h p : wf h -> owned h p -> exists h' p', hrealloc h p = Ok (h', p') /\ moved h p h' p' /\ p' <> None.
Proof.
  intros W O. destruct (hfree_ok h p W O) as (h1 & E & M). unfold hrealloc. rewrite E. cbn [bind].
  exists (fst (halloc h1)), (snd (halloc h1)). split; [destruct (halloc h1); reflexivity|]. split; [|discriminate].
  eapply moved_trans; [exact W|exact M|apply moved_alloc, M].
Qed.

(** ** Lists of objects *)
Section Objects.
Context {A : Type} (ptr : A -> option nat) (good : A -> Prop).

Definition inv (h : heap) (l : list (option A)) : Prop :=
  wf h /\
  (forall i m, obj l i = Some m -> owned h (ptr m) /\ good m) /\
  (forall i j m n q, i <> j -> obj l i = Some m -> obj l j = Some n -> ptr m = Some q -> ptr n <> Some q).

Lemma obj_put_same (l : list (option A)) : forall i m x, obj l i = Some m -> obj (put l i x) i = x.
Proof.
  unfold obj. induction l as [|y t IH]; intros i m x H; destruct i as [|k]; cbn [nth put] in *; try discriminate; auto.
  eapply IH, H.
Qed.
Lemma obj_put_other (l : list (option A)) : forall i j x, i <> j -> obj (put l i x) j = obj l j.
Proof.
  unfold obj. induction l as [|y t IH]; intros i j x D; destruct i as [|k], j as [|m]; cbn [nth put]; auto; try congruence.
Qed.
Lemma obj_app (l : list (option A)) x i : obj (l ++ [x]) i = if Nat.eqb i (List.length l) then x else obj l i.
Proof.
  unfold obj. revert i; induction l as [|y t IH]; intros [|k]; cbn [nth app List.length Nat.eqb]; auto.
  - destruct k; reflexivity.
Qed.
Lemma obj_length (l : list (option A)) : obj l (List.length l) = None.
Proof. unfold obj. apply nth_overflow. lia. Qed.

Lemma inv_owned h l i m : inv h l -> obj l i = Some m -> owned h (ptr m).
Proof. intros (_ & G & _) E. apply (G _ _ E). Qed.
Lemma inv_good h l i m : inv h l -> obj l i = Some m -> good m.
Proof. intros (_ & G & _) E. apply (G _ _ E). Qed.

Lemma inv_put h l i m h' x : inv h l -> obj l i = Some m ->
  moved h (ptr m) h' (match x with Some m' => ptr m' | None => None end) ->
  (forall m', x = Some m' -> good m') -> inv h' (put l i x).
Proof.
  intros (W & G & D) E (W' & N & L & P) Gx. split; [exact W'|]. split.
  - intros j n F. destruct (Nat.eq_dec i j) as [->|Ne].
    + rewrite (obj_put_same _ _ _ _ E) in F. subst x. split; [|auto]. intros q Q. apply P, Q.
    + rewrite obj_put_other in F by auto. destruct (G _ _ F) as [O Gn]. split; [|exact Gn].
      intros q Q. apply L; [apply O, Q|]. intro C. exact (D i j m n q Ne E F C Q).
  - intros j k a b q Ne Fj Fk Qa Qb.
    destruct (Nat.eq_dec i j) as [Ij|Nj], (Nat.eq_dec i k) as [Ik|Nk]; [congruence| | |]; try subst j; try subst k.
    + rewrite (obj_put_same _ _ _ _ E) in Fj. rewrite obj_put_other in Fk by auto. subst x.
      destruct (P q Qa) as [_ [C|C]]; [exact (D i k m b q Ne E Fk C Qb)|].
      destruct (G _ _ Fk) as [O _]. specialize (W q (O q Qb)). lia.
    + rewrite (obj_put_same _ _ _ _ E) in Fk. rewrite obj_put_other in Fj by auto. subst x.
      destruct (P q Qb) as [_ [C|C]]; [exact (D j i a m q Ne Fj E Qa C)|].
      destruct (G _ _ Fj) as [O _]. specialize (W q (O q Qa)). lia.
    + rewrite obj_put_other in Fj, Fk by auto. exact (D j k a b q Ne Fj Fk Qa Qb).
Qed.
Lemma inv_add h l h' m' : inv h l -> moved h None h' (ptr m') -> good m' -> inv h' (l ++ [Some m']).
Proof.
  intros (W & G & D) (W' & N & L & P) Gm. split; [exact W'|]. split.
  - intros i m E. rewrite obj_app in E. destruct (Nat.eqb i (List.length l)).
    + injection E as <-. split; [|exact Gm]. intros q Q. apply P, Q.
    + destruct (G _ _ E) as [O Go]. split; [|exact Go]. intros q Q. apply L; [apply O, Q|discriminate].
  - intros i j m n q Ne Ei Ej Qm Qn. rewrite obj_app in Ei, Ej.
    destruct (Nat.eqb_spec i (List.length l)) as [Hi|Ni], (Nat.eqb_spec j (List.length l)) as [Hj|Nj]; [congruence| | |].
    + injection Ei as <-. destruct (P q Qm) as [_ [C|C]]; [discriminate|].
      destruct (G _ _ Ej) as [O _]. specialize (W q (O q Qn)). lia.
    + injection Ej as <-. destruct (P q Qn) as [_ [C|C]]; [discriminate|].
      destruct (G _ _ Ei) as [O _]. specialize (W q (O q Qm)). lia.
    + exact (D i j m n q Ne Ei Ej Qm Qn).
Qed.
End Objects.

(** ** Scripts *)
Definition sgood (m : mscript) : Prop :=
  let s := ms_val m in
  0 <= sc_len s /\ 0 <= sc_lenLen s /\ 0 <= sc_parsed s /\
  (0 < sc_len s -> ms_ptr m <> None) /\
  (sc_status s = INCOMPLETE -> 0 < sc_parsed s < sc_lenLen s -> ms_ptr m <> None).

Lemma sgood_ptr m : sgood m -> 0 < ms_len m -> ms_ptr m <> None.
Proof. intros (_ & _ & _ & K & _) L. exact (K L). Qed.

Definition step_ok (h : heap) (m : mscript) (r : outcome (heap * mscript)) : Prop :=
  exists h' m', r = Ok (h', m') /\ moved h (ms_ptr m) h' (ms_ptr m') /\ sgood m'.

Lemma ms_clear_ok h m : wf h -> owned h (ms_ptr m) -> sgood m -> step_ok h m (ms_clear h m) /\
  (forall h' m', ms_clear h m = Ok (h', m') -> ms_val m' = script_clear (ms_val m)).
Proof.
  intros W O G. unfold ms_clear. destruct (ms_ptr m) as [q|] eqn:P.
  - destruct (Z.ltb_spec 0 (ms_len m)) as [L|L].
    + destruct (hfree_ok h (ms_ptr m) W) as (h' & E & M); [rewrite P; exact O|]. rewrite P in E, M. rewrite E. cbn [bind].
      split.
      * exists h', (mkMs None (script_clear (ms_val m))). split; [reflexivity|]. split; [rewrite P; exact M|].
        unfold sgood, script_clear, ms_len in *. cbn [ms_val ms_ptr]. destruct (Z.ltb_spec 0 (sc_len (ms_val m))); [|lia].
        cbn [sc_len sc_lenLen sc_parsed sc_status]. destruct G as (_ & _ & ? & _). repeat split; lia || auto; lia.
      * intros h2 m2 E2. injection E2 as _ <-. reflexivity.
    + split.
      * exists h, m. split; [reflexivity|]. split; [rewrite P; apply moved_refl; auto|exact G].
      * intros h2 m2 E2. injection E2 as _ <-. unfold script_clear, ms_len in *.
        destruct (Z.ltb_spec 0 (sc_len (ms_val m))); [lia|reflexivity].
  - split.
    + exists h, m. split; [reflexivity|]. split; [rewrite P; apply moved_refl; auto|exact G].
    + intros h2 m2 E2. injection E2 as _ <-. unfold script_clear.
      destruct (Z.ltb_spec 0 (sc_len (ms_val m))) as [L|L]; [|reflexivity]. exfalso.
      destruct G as (_ & _ & _ & K & _). exact (K L P).
Qed.

Lemma ms_push_ok h m data : wf h -> owned h (ms_ptr m) -> sgood m -> step_ok h m (ms_push h m data).
Proof.
  intros W O G. unfold ms_push. destruct (Z.gtb_spec (ms_len m + len data) MAX_SCRIPT_SIZE) as [L|L].
  - apply ms_clear_ok; auto.
  - assert (K : forall p, p <> None -> sgood (mkMs p (script_push (ms_val m) data))).
    { intros p Np. unfold script_push, ms_len in *. destruct (Z.gtb_spec (sc_len (ms_val m) + len data) MAX_SCRIPT_SIZE); [lia|].
      unfold sgood. cbn [ms_val ms_ptr sc_len sc_lenLen sc_parsed sc_status]. destruct G as (? & ? & ? & _).
      pose proof (len_nonneg _ data). repeat split; auto; lia. }
    destruct (Z.eqb_spec (ms_len m) 0).
    + cbn [bind]. pose proof (moved_alloc h (ms_ptr m) W) as M. destruct (halloc h) as [h' p] eqn:E. cbn [fst snd] in M.
      assert (Np : p <> None) by (unfold halloc in E; injection E as _ <-; discriminate).
      rewrite huse_ok by (eauto using moved_owned). cbn [bind].
      eexists _, _. split; [reflexivity|]. split; [exact M|apply K, Np].
    + destruct (hrealloc_ok h (ms_ptr m) W O) as (h' & p & E & M & Np). rewrite E. cbn [bind].
      rewrite huse_ok by (eauto using moved_owned). cbn [bind].
      eexists _, _. split; [reflexivity|]. split; [exact M|apply K, Np].
Qed.

Lemma script_copy_good s p : 0 <= sc_len s -> p <> None -> sgood (mkMs p (script_copy s)).
Proof.
  intros L Np. unfold sgood, script_copy. cbn [ms_val ms_ptr].
  destruct (Z.ltb_spec 0 (sc_len s)); cbn [script_new sc_len sc_lenLen sc_parsed sc_status]; repeat split; auto; lia.
Qed.
Lemma script_new_good : sgood (mkMs None script_new).
Proof. unfold sgood. cbn [ms_val ms_ptr script_new sc_len sc_lenLen sc_parsed sc_status]. repeat split; try lia; discriminate. Qed.

(** The new object of a copy. *)
Definition make_ok (h : heap) (r : outcome (heap * mscript)) : Prop :=
  exists h' m', r = Ok (h', m') /\ moved h None h' (ms_ptr m') /\ sgood m'.
Lemma ms_copy_ok h m : wf h -> owned h (ms_ptr m) -> sgood m -> make_ok h (ms_copy h m).
Proof.
  intros W O G. unfold ms_copy. destruct (Z.ltb_spec 0 (ms_len m)) as [L|L].
  - rewrite huse_ok by (auto; apply (sgood_ptr _ G), L). cbn [bind]. pose proof (moved_alloc h None W) as M.
    destruct (halloc h) as [h' p] eqn:E. cbn [fst snd] in M.
    eexists _, _. split; [reflexivity|]. split; [exact M|]. apply script_copy_good; [apply G|].
    unfold halloc in E. injection E as _ <-. discriminate.
  - eexists _, _. split; [reflexivity|]. split; [apply moved_forget, W|].
    unfold script_copy, ms_len in *. destruct (Z.ltb_spec 0 (sc_len (ms_val m))); [lia|apply script_new_good].
Qed.

Lemma script_assign_good d s p : 0 <= sc_len s -> 0 <= sc_lenLen d -> 0 <= sc_len d -> (0 < sc_len s -> p <> None) ->
  sgood (mkMs p (script_assign d s)).
Proof.
  intros L Ld Lc Np. unfold sgood, script_assign. cbn [ms_val ms_ptr].
  destruct (Z.ltb_spec 0 (sc_len s)) as [H|H]; unfold script_clear; cbn [sc_len sc_lenLen sc_parsed sc_status sc_arr];
    destruct (Z.ltb_spec 0 (sc_len d)) as [H'|H']; cbn [sc_len sc_lenLen sc_parsed sc_status sc_arr]; repeat split; auto; try lia; try discriminate.
Qed.
Lemma ms_assign_ok h d s : wf h -> owned h (ms_ptr d) -> owned h (ms_ptr s) -> sgood d -> sgood s ->
  (forall q, ms_ptr d = Some q -> ms_ptr s <> Some q) -> step_ok h d (ms_assign h d s).
Proof.
  intros W Od Os Gd Gs D. unfold ms_assign.
  destruct (ms_clear_ok h d W Od Gd) as [(h1 & d1 & E & M & G1) _]. rewrite E. cbn [bind].
  destruct (Z.ltb_spec 0 (ms_len s)) as [L|L].
  - assert (O1 : owned h1 (ms_ptr s)).
    { intros q Q. apply (moved_keep _ _ _ _ _ M); [apply Os, Q|]. intro C. exact (D q C Q). }
    rewrite huse_ok by (auto; apply (sgood_ptr _ Gs), L). cbn [bind].
    pose proof (moved_alloc h1 (ms_ptr d1) (moved_wf _ _ _ _ M)) as M2.
    destruct (halloc h1) as [h2 p] eqn:E2. cbn [fst snd] in M2.
    eexists _, _. split; [reflexivity|]. split; [eapply moved_trans; eauto|].
    apply script_assign_good; try apply Gs; try apply Gd. intros _. unfold halloc in E2. injection E2 as _ <-. discriminate.
  - eexists _, _. split; [reflexivity|]. split; [exact M|].
    apply script_assign_good; try apply Gs; try apply Gd. unfold ms_len in L. lia.
Qed.

Lemma ms_push_script_ok h m s bytes : wf h -> owned h (ms_ptr m) -> owned h (ms_ptr s) -> sgood m -> sgood s ->
  step_ok h m (ms_push_script h m s bytes).
Proof.
  intros W Om Os Gm Gs. unfold ms_push_script.
  destruct (ms_copy_ok h s W Os Gs) as (h1 & c & E & M & Gc). rewrite E. cbn [bind].
  pose proof (moved_wf _ _ _ _ M) as W1.
  destruct (halloc h1) as [h2 t] eqn:E2. unfold halloc in E2. injection E2 as E2 _.
  (* everything live stays live, and the copy is not m's block *)
  assert (W2 : wf h2). { subst h2. intros q [<-|I]; cbn; [lia|]. specialize (W1 q I). cbn. lia. }
  assert (Keep : forall q, In q (h_live h1) -> In q (h_live h2)) by (intros q I; subst h2; right; exact I).
  assert (Oc : owned h2 (ms_ptr c)) by (intros q Q; apply Keep; eapply moved_owned; eauto).
  assert (Om2 : owned h2 (ms_ptr m)). { intros q Q. apply Keep. apply (moved_keep _ _ _ _ _ M); [apply Om, Q|discriminate]. }
  assert (Dif : forall q, ms_ptr c = Some q -> (h_next h <= q)%nat).
  { intros q Q. destruct M as (_ & _ & _ & P). destruct (P q Q) as [_ [C|C]]; [discriminate|exact C]. }
  assert (Dm : forall q, ms_ptr c = Some q -> ms_ptr m <> Some q).
  { intros q Q C. pose proof (Dif q Q). specialize (W q (Om q C)). lia. }
  assert (U : (if 0 <? ms_len c then huse h2 (ms_ptr c) else Ok tt) = Ok tt).
  { destruct (Z.ltb_spec 0 (ms_len c)) as [L|L]; [|reflexivity]. apply huse_ok; [exact Oc|]. apply (sgood_ptr _ Gc), L. }
  rewrite U. cbn [bind].
  destruct (ms_push_ok h2 m bytes W2 Om2 Gm) as (h3 & m' & E3 & M3 & G'). rewrite E3. cbn [bind].
  pose proof (moved_wf _ _ _ _ M3) as W3.
  assert (Oc3 : owned h3 (ms_ptr c)). { intros q Q. apply (moved_keep _ _ _ _ _ M3); [apply Oc, Q|]. apply Dm, Q. }
  unfold ms_destroy. destruct (hfree_ok h3 (ms_ptr c) W3 Oc3) as (h4 & E4 & M4). rewrite E4. cbn [bind].
  exists h4, m'. split; [reflexivity|]. split; [|exact G'].
  assert (N02 : (h_next h <= h_next h2)%nat) by (subst h2; cbn; destruct M as (_ & ? & _); lia).
  assert (Dc : forall q, ms_ptr m' = Some q -> ms_ptr c <> Some q).
  { intros q Q C. destruct M3 as (_ & _ & _ & P3). destruct (P3 q Q) as [_ [F|F]]; [exact (Dm q C F)|].
    specialize (W2 q (Oc q C)). lia. }
  split; [apply M4|]. split; [destruct M3 as (_ & ? & _), M4 as (_ & ? & _); lia|]. split.
  - intros q I Ne. apply (moved_keep _ _ _ _ _ M4).
    + apply (moved_keep _ _ _ _ _ M3); [|exact Ne]. apply Keep. apply (moved_keep _ _ _ _ _ M); [exact I|discriminate].
    + intro C. pose proof (Dif q C). specialize (W q I). lia.
  - intros q Q. destruct M3 as (_ & N3 & _ & P3). destruct (P3 q Q) as [I F]. split.
    + apply (moved_keep _ _ _ _ _ M4); [exact I|]. intro C. exact (Dc q Q C).
    + destruct F as [F|F]; [left; exact F|right; lia].
Qed.

(** Parsing *)
Lemma header_len s st len2 lenLen pos2 : bytes_ok st -> 0 <= sc_len s -> 0 <= sc_lenLen s -> 0 <= sc_parsed s ->
  script_header s st = Ok (len2, lenLen, pos2) -> 0 <= len2 /\ 0 <= lenLen /\ 0 <= pos2.
Proof.
  intros B L LL P H. unfold script_header in H.
  assert (K : forall limit st pos acc a q r, 0 <= pos -> 0 <= acc -> read_loop_o limit pos script_len_step acc st = Ok (a, q, r) -> 0 <= a /\ 0 <= q).
  { clear. intros limit st. induction st as [|c t IH]; intros pos acc a q r P A H; cbn [read_loop_o] in H.
    - injection H as <- <- _. auto.
    - destruct (pos <? limit); [|injection H as <- <- _; auto].
      unfold script_len_step at 1 in H. destruct (shl_int c (8 * (pos - 1))) as [v|]; cbn [bind] in H; [|discriminate].
      apply IH in H; auto; [lia|]. unfold u64. apply Z.mod_pos_bound. lia. }
  destruct st as [|b t].
  - cbn [read_loop_o bind] in H. injection H as <- <- <-. auto.
  - pose proof (Forall_inv B) as Bb. cbv beta in Bb. unfold byte_ok in Bb.
    destruct (sc_parsed s =? 0) eqn:Z0.
    + destruct (Z.ltb_spec b 253).
      * destruct (read_loop_o 1 1 script_len_step b t) as [[[a q] r]|] eqn:R; cbn [bind] in H; [|discriminate].
        injection H as <- <- <-. apply K in R; lia.
      * destruct (read_loop_o (varint_len b) 1 script_len_step 0 t) as [[[a q] r]|] eqn:R; cbn [bind] in H; [|discriminate].
        injection H as <- <- <-. apply K in R; try lia. split; [lia|]. split; [|lia].
        unfold varint_len. destruct (b <? 253); [lia|]. rewrite Z.shiftl_mul_pow2 by lia. nia.
    + destruct (read_loop_o (sc_lenLen s) (sc_parsed s) script_len_step (sc_len s) (b :: t)) as [[[a q] r]|] eqn:R; cbn [bind] in H; [|discriminate].
      injection H as <- <- <-. apply K in R; lia.
Qed.

Lemma body_tail arr1 len1 lenLen1 pos1 st1 p0 s' n r len2 pos2 st2 :
  read_loop_o lenLen1 pos1 script_len_step len1 st1 = Ok (len2, pos2, st2) ->
  (let! r := read_loop_o lenLen1 pos1 script_len_step len1 st1 in
   let '(len2, pos2, st2) := r in
   let at_len := pos2 =? lenLen1 in
   if at_len && (0 <? len2) && negb (alloc_ok len2) then
     Ok (mkScript [] 0 lenLen1 FAILED p0, 0, st2)
   else
   let arr2 := if at_len && (0 <? len2) then zeros (Z.to_nat len2) else arr1 in
   if at_len && negb (lenVarInt len2 =? lenLen1) then
     Ok (mkScript arr2 len2 lenLen1 FAILED pos2, pos2 - p0, st2)
   else
   let limit := u64 (len2 + lenLen1) in
   let! r3 := read_loop_o limit pos2 (script_byte_step lenLen1) arr2 st2 in
   let '(arr3, pos3, st3) := r3 in
   Ok (mkScript arr3 len2 lenLen1 (if pos3 =? limit then DONE else INCOMPLETE) pos3,
       pos3 - p0, st3)) = Ok (s', n, r) ->
  ((pos2 =? lenLen1) && (0 <? len2) && negb (alloc_ok len2) = true /\
     sc_len s' = 0 /\ sc_lenLen s' = lenLen1 /\ sc_status s' = FAILED /\ sc_parsed s' = p0) \/
  ((pos2 =? lenLen1) && (0 <? len2) && negb (alloc_ok len2) = false /\
     sc_len s' = len2 /\ sc_lenLen s' = lenLen1 /\ pos2 <= sc_parsed s' /\
     (pos2 < sc_parsed s' -> lenLen1 <= pos2 < u64 (len2 + lenLen1))).
Proof.
  intros R H. rewrite R in H. cbn [bind] in H. cbv zeta in H.
  destruct ((pos2 =? lenLen1) && (0 <? len2) && negb (alloc_ok len2)) eqn:E1.
  - left. injection H as <- _ _. cbn. auto.
  - right. split; [reflexivity|].
    match type of H with context [if ?b then Ok _ else _] => destruct b end.
    + injection H as <- _ _. cbn [sc_len sc_lenLen sc_parsed]. repeat split; try lia.
    + match type of H with context [read_loop_o ?a ?b ?c ?d ?e] => destruct (read_loop_o a b c d e) as [[[arr3 pos3] st3]|] eqn:R3 end; cbn [bind] in H; [|discriminate].
      injection H as <- _ _. cbn [sc_len sc_lenLen sc_parsed].
      pose proof (read_loop_o_pos _ _ _ _ _ _ _ _ R) as (_ & _ & _ & Q1 & _).
      pose proof (read_loop_o_pos _ _ _ _ _ _ _ _ R3) as (P1 & P2 & P3 & _).
      split; [reflexivity|]. split; [reflexivity|]. split; [exact P2|]. intros Lt.
      destruct Q1 as [->|Q1]; [|lia]. rewrite len_nil in P1. pose proof (len_nonneg _ st3). lia.
Qed.
Lemma body_facts s st s' n r len2 lenLen pos2 :
  script_parse_body s st = Ok (s', n, r) -> script_header s st = Ok (len2, lenLen, pos2) ->
  ((pos2 =? lenLen) && (0 <? len2) && negb (alloc_ok len2) = true /\
     sc_len s' = 0 /\ sc_lenLen s' = lenLen /\ sc_status s' = FAILED /\ sc_parsed s' = sc_parsed s) \/
  ((pos2 =? lenLen) && (0 <? len2) && negb (alloc_ok len2) = false /\
     sc_len s' = len2 /\ sc_lenLen s' = lenLen /\ pos2 <= sc_parsed s' /\
     (pos2 < sc_parsed s' -> lenLen <= pos2 < u64 (len2 + lenLen))).
Proof.
  unfold script_parse_body, script_header. intros H G.
  destruct st as [|b t]; [|destruct (sc_parsed s =? 0); [destruct (b <? 253)|]]; cbv zeta beta iota in H, G;
    match type of G with context [read_loop_o ?a ?b ?c ?d ?e] => destruct (read_loop_o a b c d e) as [[[a2 q2] r2]|] eqn:R end;
    cbn [bind] in G; try discriminate; injection G as <- <- <-;
    (eapply body_tail; [exact R|rewrite R; cbn [bind]; exact H]).
Qed.

(** What the header gives when there is no block yet. *)
Lemma header_none s st len2 lenLen pos2 : bytes_ok st -> 0 <= sc_parsed s ->
  script_header s st = Ok (len2, lenLen, pos2) ->
  match st with b :: _ => (sc_parsed s =? 0) && ((253 <=? b) || (0 <? b)) | [] => false end = false ->
  (len2 = 0 /\ lenLen = 1 /\ pos2 = 1) \/
  (st = [] /\ len2 = sc_len s /\ lenLen = sc_lenLen s /\ pos2 = sc_parsed s) \/
  (0 < sc_parsed s <= pos2 /\ lenLen = sc_lenLen s /\ (sc_lenLen s <= sc_parsed s -> len2 = sc_len s)).
Proof.
  intros B P H N. unfold script_header in H. destruct st as [|b t].
  - cbn [read_loop_o bind] in H. injection H as <- <- <-. right; left. auto.
  - pose proof (Forall_inv B) as Bb. cbv beta in Bb. unfold byte_ok in Bb. destruct (Z.eqb_spec (sc_parsed s) 0) as [E|E].
    + cbn [andb] in N. apply Bool.orb_false_iff in N. destruct N as [N1 N2]. apply Z.leb_gt in N1. apply Z.ltb_ge in N2.
      destruct (Z.ltb_spec b 253); [|lia]. assert (b = 0) as -> by lia.
      rewrite read_loop_o_stop in H by lia. cbn [bind] in H. injection H as <- <- <-. left. auto.
    + right. right.
      destruct (read_loop_o (sc_lenLen s) (sc_parsed s) script_len_step (sc_len s) (b :: t)) as [[[a q] r]|] eqn:R; cbn [bind] in H; [|discriminate].
      injection H as <- <- <-. pose proof (read_loop_o_pos _ _ _ _ _ _ _ _ R) as (_ & Q & _). split; [lia|]. split; [reflexivity|].
      intros L. rewrite read_loop_o_stop in R by lia. injection R as <- _ _. reflexivity.
Qed.

Definition parse_ok (h : heap) (m : mscript) (r : outcome (option (heap * mscript))) : Prop :=
  r = Ok None \/
  exists h' m', r = Ok (Some (h', m')) /\ moved h (ms_ptr m) h' (ms_ptr m') /\ sgood m'.

Lemma parse_tail h0 m0 s0 st (res : outcome (script * Z * list Z)) :
  wf h0 -> owned h0 (ms_ptr m0) -> sgood (mkMs (ms_ptr m0) s0) -> bytes_ok st -> (sc_parsed s0 <> 0 -> sc_status s0 = INCOMPLETE) ->
  res = script_parse_body s0 st ->
  parse_ok h0 m0
    (let '(h1, p1) :=
        match st with
        | b :: _ => if (sc_parsed s0 =? 0) && ((253 <=? b) || (0 <? b)) then halloc h0 else (h0, ms_ptr m0)
        | [] => (h0, ms_ptr m0)
        end in
      match script_header s0 st, res with
      | Ok (len2, lenLen, pos2), Ok (s', _, _) =>
          let! r2 :=
            (if (pos2 =? lenLen) && (0 <? len2) then
               let! h2 := hfree h1 p1 in
               if alloc_ok len2 then Ok (halloc h2) else Ok (h2, None)
             else Ok (h1, p1)) in
          let '(h2, p2) := r2 in
          let! _ := (if pos2 <? sc_parsed s' then huse h2 p2 else Ok tt) in
          Ok (Some (h2, mkMs p2 s'))
      | _, _ => Ok None
      end).
Proof.
  intros W O G B Inc ->.
  set (al := match st with b :: _ => (sc_parsed s0 =? 0) && ((253 <=? b) || (0 <? b)) | [] => false end).
  replace (match st with
        | b :: _ => if (sc_parsed s0 =? 0) && ((253 <=? b) || (0 <? b)) then halloc h0 else (h0, ms_ptr m0)
        | [] => (h0, ms_ptr m0)
        end) with (if al then halloc h0 else (h0, ms_ptr m0)) by (subst al; destruct st; reflexivity).
  assert (M1 : moved h0 (ms_ptr m0) (fst (if al then halloc h0 else (h0, ms_ptr m0))) (snd (if al then halloc h0 else (h0, ms_ptr m0))) /\
    (al = true -> snd (if al then halloc h0 else (h0, ms_ptr m0)) <> None) /\
    (al = false -> snd (if al then halloc h0 else (h0, ms_ptr m0)) = ms_ptr m0)).
  { destruct al; [split; [apply moved_alloc, W|split; [discriminate|discriminate]]|].
    split; [apply moved_refl; auto|split; [discriminate|reflexivity]]. }
  destruct (if al then halloc h0 else (h0, ms_ptr m0)) as [h1 p1]. cbn [fst snd] in M1. destruct M1 as (M1 & A1 & A2).
  destruct (script_header s0 st) as [[[len2 lenLen] pos2]|] eqn:H; [|left; reflexivity].
  destruct (script_parse_body s0 st) as [[[s' n] r]|] eqn:P; [|left; reflexivity]. right.
  pose proof (body_facts _ _ _ _ _ _ _ _ P H) as F.
  destruct G as (G1 & G2 & G3 & G4 & G5). cbn [ms_ptr ms_val] in *.
  destruct (header_len _ _ _ _ _ B G1 G2 G3 H) as (L1 & L2 & L3).
  pose proof (header_none _ _ _ _ _ B G3 H) as HN. fold al in HN.
  destruct ((pos2 =? lenLen) && (0 <? len2)) eqn:At.
  - apply andb_prop in At. destruct At as [At1 At2]. apply Z.eqb_eq in At1. apply Z.ltb_lt in At2.
    destruct (hfree_ok h1 p1 (moved_wf _ _ _ _ M1) (moved_owned _ _ _ _ M1)) as (h2 & E & M2). rewrite E. cbn [bind].
    destruct (alloc_ok len2) eqn:Al.
    + cbn [bind]. pose proof (moved_alloc h2 None (moved_wf _ _ _ _ M2)) as M3.
      assert (Np : snd (halloc h2) <> None) by discriminate.
      destruct (halloc h2) as [h3 p3]. cbn [fst snd] in M3, Np.
      assert (M : moved h0 (ms_ptr m0) h3 p3) by (eapply moved_trans; [exact W|exact M1|]; eapply moved_trans; [apply M1|exact M2|exact M3]).
      destruct (pos2 <? sc_parsed s'); [rewrite huse_ok by (auto; eapply moved_owned; exact M3)|]; cbn [bind];
        (exists h3, (mkMs p3 s'); split; [reflexivity|split; [exact M|]];
         destruct F as [(F & _)|(_ & F1 & F2 & F3 & _)]; [cbn [andb negb] in F; discriminate|];
         unfold sgood; cbn [ms_ptr ms_val]; rewrite F1, F2; repeat split; auto; lia).
    + cbn [bind]. destruct F as [(_ & F1 & F2 & F3 & F4)|(F & _)]; [|cbn [andb negb] in F; discriminate].
      assert (Le : sc_parsed s' <= pos2).
      { rewrite F4. unfold script_header in H. destruct st as [|b t].
        - cbn [read_loop_o bind] in H. injection H as _ _ <-. lia.
        - destruct (Z.eqb_spec (sc_parsed s0) 0) as [E0|E0]; [lia|].
          destruct (read_loop_o (sc_lenLen s0) (sc_parsed s0) script_len_step (sc_len s0) (b :: t)) as [[[a q] r']|] eqn:R; cbn [bind] in H; [|discriminate].
          pose proof (read_loop_o_pos _ _ _ _ _ _ _ _ R) as (_ & Q & _). injection H as _ _ <-. exact Q. }
      destruct (Z.ltb_spec pos2 (sc_parsed s')); [lia|]. cbn [bind].
      exists h2, (mkMs None s'). split; [reflexivity|]. split; [eapply moved_trans; [exact W|exact M1|exact M2]|].
      unfold sgood. cbn [ms_ptr ms_val]. rewrite F1, F2, F3, F4. repeat split; auto; try lia; discriminate.
  - cbn [bind].
    destruct F as [(F & _)|(_ & F1 & F2 & F3 & F4)]; [cbn [andb] in F; discriminate|].
    assert (Key : (pos2 < sc_parsed s' \/ 0 < len2 \/ (0 < sc_parsed s' < lenLen /\ sc_status s' = INCOMPLETE)) -> p1 <> None).
    { intros C. destruct al eqn:Ea; [apply A1; reflexivity|]. rewrite (A2 eq_refl). intro Pn.
      assert (Z0 : sc_len s0 = 0). { destruct (Z.ltb_spec 0 (sc_len s0)) as [K|K]; [exfalso; exact (G4 K Pn)|lia]. }
      assert (NI : ~ (0 < sc_parsed s0 < sc_lenLen s0)).
      { intro K. apply (G5 (Inc ltac:(lia)) K Pn). }
      assert (At' : ~ (pos2 = lenLen /\ 0 < len2)).
      { intros [K1 K2]. apply Bool.andb_false_iff in At. destruct At as [At|At]; [apply Z.eqb_neq in At|apply Z.ltb_ge in At]; lia. }
      assert (U : u64 (0 + lenLen) <= lenLen) by (unfold u64; apply Z.mod_le; lia).
      destruct (HN eq_refl) as [(-> & -> & ->)|[(-> & -> & -> & ->)|(K1 & -> & K2)]].
      - destruct C as [C|[C|[C _]]]; [|lia|lia]. specialize (F4 C). lia.
      - rewrite Z0 in *. destruct C as [C|[C|[C _]]]; [specialize (F4 C); lia|lia|].
        destruct (Z.ltb_spec (sc_parsed s0) (sc_parsed s')) as [K|K]; [specialize (F4 K); lia|]. lia.
      - rewrite K2, Z0 in * by lia. destruct C as [C|[C|[C _]]]; [specialize (F4 C); lia|lia|lia]. }
    assert (Us : (if pos2 <? sc_parsed s' then huse h1 p1 else Ok tt) = Ok tt).
    { destruct (Z.ltb_spec pos2 (sc_parsed s')); [|reflexivity]. apply huse_ok; [eapply moved_owned; exact M1|auto]. }
    rewrite Us. cbn [bind]. exists h1, (mkMs p1 s'). split; [reflexivity|]. split; [exact M1|].
    unfold sgood. cbn [ms_ptr ms_val]. rewrite F1, F2. repeat split; auto; lia.
Qed.

Lemma ms_parse_ok h m st : wf h -> owned h (ms_ptr m) -> sgood m -> bytes_ok st -> parse_ok h m (ms_parse h m st).
Proof.
  intros W O G B. unfold ms_parse. destruct (sc_status (ms_val m)) eqn:S.
  - destruct (ms_clear_ok h m W O G) as [(h0 & m0 & E & M & G0) V]. rewrite E. cbn [bind].
    specialize (V _ _ E).
    set (s0 := script_clear (mkScript (sc_arr (ms_val m)) (sc_len (ms_val m)) (sc_lenLen (ms_val m)) DONE 0)).
    assert (Gs : sgood (mkMs (ms_ptr m0) s0)).
    { destruct G0 as (K1 & K2 & K3 & K4 & K5). rewrite V in *. subst s0. unfold sgood, script_clear in *. cbn [ms_ptr ms_val sc_len] in *.
      destruct (0 <? sc_len (ms_val m)); cbn [sc_len sc_lenLen sc_parsed sc_status] in *; repeat split; auto; try lia; discriminate. }
    assert (R : script_parse (ms_val m) st = script_parse_body s0 st) by (unfold script_parse; rewrite S; reflexivity).
    destruct (parse_tail h0 m0 s0 st (script_parse (ms_val m) st) (moved_wf _ _ _ _ M) (moved_owned _ _ _ _ M) Gs B) as [T|(h' & m' & T & M' & G')]; auto.
    + intro K. exfalso. apply K. subst s0. unfold script_clear. cbn [sc_len]. destruct (0 <? sc_len (ms_val m)); reflexivity.
    + left. exact T.
    + right. exists h', m'. split; [exact T|]. split; [eapply moved_trans; eauto|exact G'].
  - cbn [bind]. apply (parse_tail h m (ms_val m) st (script_parse (ms_val m) st)); auto.
    unfold script_parse. rewrite S. reflexivity.
  - right. exists h, m. split; [reflexivity|]. split; [apply moved_refl; auto|exact G].
Qed.

Definition sinv (st : sstate) : Prop := inv ms_ptr sgood (fst st) (snd st).

Lemma sinv_empty : sinv (heap_empty, []).
Proof.
  split; [intros q []|]. split.
  - intros i m E. unfold obj in E. destruct i; discriminate.
  - intros i j m n q _ E. unfold obj in E. destruct i; discriminate.
Qed.

Lemma sstep_ok st o : sinv st -> script_call o -> exists r, sstep st o = Ok r /\ forall st', r = Some st' -> sinv st'.
Proof.
  destruct st as [h l]. intros I Ho. pose proof (proj1 I) as W. cbn [fst snd] in *.
  assert (Put : forall i m r, obj l i = Some m -> step_ok h m r ->
    exists x, (let! x := r in Ok (Some (fst x, put l i (Some (snd x))))) = Ok x /\ forall st', x = Some st' -> sinv st').
  { intros i m r E (h' & m' & -> & M & G). cbn [bind fst snd]. eexists. split; [reflexivity|].
    intros st' F. injection F as <-. eapply (inv_put _ _ h l i m h' (Some m')); eauto. intros m2 F. injection F as <-. exact G. }
  assert (Add : forall r, make_ok h r -> exists x, (let! x := r in Ok (Some (fst x, l ++ [Some (snd x)]))) = Ok x /\ forall st', x = Some st' -> sinv st').
  { intros r (h' & m' & -> & M & G). cbn [bind fst snd]. eexists. split; [reflexivity|].
    intros st' F. injection F as <-. eapply inv_add; eauto. }
  assert (Same : exists x, Ok (Some (h, l)) = Ok x /\ forall st', x = Some st' -> sinv st').
  { eexists. split; [reflexivity|]. intros st' F. injection F as <-. exact I. }
  pose proof (inv_owned ms_ptr sgood h l) as Ow. pose proof (inv_good ms_ptr sgood h l) as Go.
  destruct o as [data|data|i|i j|i data|i j|i|i bytes|i|i]; cbn [sstep]; cbv zeta.
  - apply Add. destruct (ms_push_ok h (mkMs None script_new) data W) as (h' & m' & E & M & G).
    + intros q F. discriminate.
    + apply script_new_good.
    + exists h', m'. auto.
  - apply (Add (Ok (ms_make h data))). destruct data as [bs|]; unfold ms_make.
    + pose proof (moved_alloc h None W) as M. assert (Np : snd (halloc h) <> None) by discriminate.
      destruct (halloc h) as [h' p]. cbn [fst snd] in M, Np. eexists _, _. split; [reflexivity|]. split; [exact M|].
      pose proof (len_nonneg _ bs). unfold sgood. cbn [ms_ptr ms_val sc_len sc_lenLen sc_parsed sc_status]. repeat split; auto; lia.
    + eexists _, _. split; [reflexivity|]. split; [apply moved_forget, W|apply script_new_good].
  - destruct (obj l i) as [m|] eqn:E; [|exact Same]. apply Add. apply ms_copy_ok; eauto.
  - destruct (obj l i) as [d|] eqn:E; [|exact Same]. destruct (obj l j) as [s|] eqn:F; [|exact Same].
    destruct (Nat.eqb_spec i j) as [->|Ne]; [exact Same|]. eapply Put; [exact E|]. apply ms_assign_ok; eauto.
    intros q. destruct I as (_ & _ & D). apply (D i j d s q Ne E F).
  - destruct (obj l i) as [m|] eqn:E; [|exact Same]. eapply Put; [exact E|]. apply ms_push_ok; eauto.
  - destruct (obj l i) as [m|] eqn:E; [|exact Same]. destruct (obj l j) as [s|] eqn:F; [|exact Same].
    destruct (ms_push_script_val s) as [bytes|]; [|eexists; split; [reflexivity|discriminate]].
    eapply Put; [exact E|]. apply ms_push_script_ok; eauto.
  - destruct (obj l i) as [m|] eqn:E; [|exact Same]. eapply Put; [exact E|]. apply ms_clear_ok; eauto.
  - destruct (obj l i) as [m|] eqn:E; [|exact Same].
    destruct (ms_parse_ok h m bytes W (Ow _ _ I E) (Go _ _ I E) Ho) as [->|(h' & m' & -> & M & G)]; cbn [bind].
    + eexists. split; [reflexivity|discriminate].
    + eexists. split; [reflexivity|]. intros st' F. injection F as <-.
      eapply (inv_put _ _ h l i m h' (Some m')); eauto. intros m2 F. injection F as <-. exact G.
  - destruct (obj l i) as [m|] eqn:E; [|exact Same].
    assert (U : ms_read h m = Ok tt).
    { unfold ms_read. destruct (Z.ltb_spec 0 (ms_len m)) as [L|L]; [|reflexivity]. apply huse_ok; eauto. apply sgood_ptr; eauto. }
    rewrite U. exact Same.
  - destruct (obj l i) as [m|] eqn:E; [|exact Same].
    unfold ms_destroy. destruct (hfree_ok h (ms_ptr m) W (Ow _ _ I E)) as (h' & -> & M). cbn [bind].
    eexists. split; [reflexivity|]. intros st' F. injection F as <-. eapply (inv_put _ _ h l i m h' None); eauto. discriminate.
Qed.

Lemma srun_safe : forall ops st, sinv st -> Forall script_call ops -> srun st ops <> UB.
Proof.
  induction ops as [|o t IH]; intros st I F; cbn [srun]; [discriminate|].
  destruct (sstep_ok st o I (Forall_inv F)) as (r & -> & K). cbn [bind].
  destruct r as [st'|]; [|discriminate]. apply IH; [apply K; reflexivity|exact (Forall_inv_tail F)].
Qed.
