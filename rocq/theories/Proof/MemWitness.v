(** Witness memory: safe as long as no witness is emptied. *)
From Coq Require Import Lia.
From Verif Require Import Base.Bytes Base.BytesFacts Model.Conversion Model.Stream Model.Script Model.Memory.
From Verif Require Import Spec.Memory Spec.Codecs Proof.IntVarint Proof.StreamFacts Proof.MemFacts.
Open Scope Z_scope.

Definition wgood (m : mwitness) : Prop :=
  0 <= wi_len (mw_val m) /\ 0 <= wi_elen (mw_val m) /\ (0 < wi_len (mw_val m) -> mw_ptr m <> None).

Lemma lenVarInt_pos n : 1 <= lenVarInt n.
Proof. unfold lenVarInt. repeat match goal with |- context [if ?b then _ else _] => destruct b end; lia. Qed.

Lemma len_loop_nonneg limit : forall st pos acc a q r, 0 <= acc ->
  read_loop_o limit pos script_len_step acc st = Ok (a, q, r) -> 0 <= a.
Proof.
  induction st as [|c t IH]; intros pos acc a q r A H; cbn [read_loop_o] in H.
  - injection H as <- _ _. exact A.
  - destruct (pos <? limit); [|injection H as <- _ _; exact A].
    unfold script_len_step at 1 in H. destruct (shl_int c (8 * (pos - 1))) as [v|]; cbn [bind] in H; [|discriminate].
    apply IH in H; auto. unfold u64. apply Z.mod_pos_bound. lia.
Qed.

(** The block that counts: none while the witness is empty. *)
Definition eff (w : witness) (p : option nat) : option nat := if 0 <? wi_len w then p else None.
Definition wok (w : witness) (p : option nat) : Prop := 0 <= wi_len w /\ 0 <= wi_elen w /\ (0 < wi_len w -> p <> None).

Lemma element_ok h p w pos st w1 pos1 st1 stop : wf h -> owned h (eff w p) -> wok w p -> bytes_ok st ->
  witness_element w pos st = Ok (w1, pos1, st1, stop) ->
  exists h1 p1, mw_element h p w st = Ok (h1, p1) /\
    (0 < wi_len w1 -> huse h1 p1 = Ok tt) /\
    (stop = true -> wi_status w1 = FAILED) /\
    (stop = false -> moved h (eff w p) h1 (eff w1 p1) /\ wok w1 p1 /\ (wi_len w1 = 0 -> h1 = h /\ p1 = p /\ wi_len w = 0)).
Proof.
  intros W O (G1 & G2 & G3) B H. unfold witness_element in H. unfold mw_element, element_need.
  set (hd := match st with
    | b :: t =>
        if wi_eparsed w =? 0 then
          if b <? 253 then (b, 1, 1, t) else (0, varint_len b, 1, t)
        else (wi_elen w, wi_curLen w, wi_eparsed w, st)
    | [] => (wi_elen w, wi_curLen w, wi_eparsed w, st)
    end) in *.
  assert (E0 : 0 <= fst (fst (fst hd))).
  { subst hd. destruct st as [|b t]; [exact G2|]. pose proof (Forall_inv B) as Bb. cbv beta in Bb. unfold byte_ok in Bb.
    destruct (wi_eparsed w =? 0); [destruct (b <? 253)|]; cbn [fst]; lia. }
  destruct hd as [[[elen1 curLen1] epos1] st1']. cbn [fst] in E0.
  destruct (read_loop_o curLen1 epos1 script_len_step elen1 st1') as [[[elen2 epos2] st2]|] eqn:R; cbn [bind] in H |- *; [|discriminate].
  apply len_loop_nonneg in R; [|exact E0]. clear E0.
  pose proof (lenVarInt_pos elen2) as Lv.
  assert (Use : 0 < wi_len w -> huse h p = Ok tt).
  { intros L. apply huse_ok; [|auto]. unfold eff in O. destruct (Z.ltb_spec 0 (wi_len w)); [exact O|lia]. }
  destruct (lenVarInt elen2 =? curLen1); cbn [negb andb] in H |- *.
  2:{ destruct (epos2 =? curLen1); cbn [andb] in H |- *.
      - cbn [bind]. injection H as <- _ _ <-. exists h, p. cbn [wi_len wi_status]. repeat split; auto; discriminate.
      - cbn [bind] in H |- *. destruct (read_loop_o _ epos2 _ (wi_arr w) st2) as [[[arr3 epos3] st3]|]; cbn [bind] in H; [|discriminate].
        exists h, p. split; [reflexivity|].
        match type of H with context [if ?b then _ else _] => destruct b end; injection H as <- _ _ <-; cbn [wi_len wi_status];
          (split; [exact Use|]; split; [discriminate|]; intros _; unfold eff, wok; cbn [wi_len wi_elen];
           split; [apply moved_refl; auto|]; repeat split; auto; lia). }
  destruct ((epos2 =? curLen1) && (0 <? epos2 - wi_eparsed w)) eqn:Gr; cbn [andb bind] in H |- *.
  2:{ cbn [bind] in H |- *. destruct (read_loop_o _ epos2 _ (wi_arr w) st2) as [[[arr3 epos3] st3]|]; cbn [bind] in H; [|discriminate].
      exists h, p. split; [reflexivity|].
      match type of H with context [if ?b then _ else _] => destruct b end; injection H as <- _ _ <-; cbn [wi_len wi_status];
          (split; [exact Use|]; split; [discriminate|]; intros _; unfold eff, wok; cbn [wi_len wi_elen];
           split; [apply moved_refl; auto|]; repeat split; auto; lia). }
  set (need := wi_len w + elen2 + lenVarInt elen2) in *. assert (Np : 0 < need) by (subst need; lia).
  destruct (alloc_ok need) eqn:Al; cbn [negb andb] in H.
  2:{ injection H as <- _ _ <-. cbn [wi_len wi_status].
      destruct (Z.eqb_spec (wi_len w) 0).
      - exists h, None. repeat split; auto; try discriminate; lia.
      - assert (Oe : owned h p). { unfold eff in O. destruct (Z.ltb_spec 0 (wi_len w)); [exact O|lia]. }
        destruct (hfree_ok h p W Oe) as (h' & E & _). rewrite E. cbn [bind]. exists h', p. repeat split; auto; try discriminate; lia. }
  assert (Grow : exists h1 p1, (if wi_len w =? 0 then Ok (halloc h) else hrealloc h p) = Ok (h1, p1) /\ moved h (eff w p) h1 p1 /\ p1 <> None).
  { destruct (Z.eqb_spec (wi_len w) 0).
    - exists (fst (halloc h)), (snd (halloc h)). split; [destruct (halloc h); reflexivity|]. split; [apply moved_alloc, W|discriminate].
    - unfold eff in *. destruct (Z.ltb_spec 0 (wi_len w)); [|lia]. apply hrealloc_ok; auto. }
  destruct Grow as (h1 & p1 & Eg & M & Nn).
  exists h1, p1. split; [destruct (wi_len w =? 0); exact Eg|].
  match type of H with bind ?e _ = _ => destruct e as [arr2|]; cbn [bind] in H; [|discriminate] end.
  destruct (read_loop_o _ epos2 _ arr2 st2) as [[[arr3 epos3] st3]|]; cbn [bind] in H; [|discriminate].
  match type of H with context [if ?b then _ else _] => destruct b end; injection H as <- _ _ <-; cbn [wi_len wi_status];
    (split; [intros _; apply huse_ok; [eapply moved_owned; exact M|exact Nn]|]; split; [discriminate|]; intros _;
     unfold wok; unfold eff at 2; cbn [wi_len wi_elen]; destruct (Z.ltb_spec 0 need); [|lia];
     split; [exact M|]; repeat split; auto; lia).
Qed.

Lemma element_rest w pos st w1 pos1 st1 stop : witness_element w pos st = Ok (w1, pos1, st1, stop) -> bytes_ok st -> bytes_ok st1.
Proof.
  unfold witness_element. intros H B.
  set (hd := match st with
    | b :: t =>
        if wi_eparsed w =? 0 then
          if b <? 253 then (b, 1, 1, t) else (0, varint_len b, 1, t)
        else (wi_elen w, wi_curLen w, wi_eparsed w, st)
    | [] => (wi_elen w, wi_curLen w, wi_eparsed w, st)
    end) in *.
  assert (Bh : bytes_ok (snd hd)).
  { subst hd. destruct st as [|b t]; [exact B|]. destruct (wi_eparsed w =? 0); [destruct (b <? 253)|]; cbn [snd]; auto; exact (Forall_inv_tail B). }
  destruct hd as [[[elen1 curLen1] epos1] st1']. cbn [snd] in Bh.
  assert (K : forall {St} limit (f : St -> Z -> Z -> outcome St) s p a a1 p1 r, read_loop_o limit p f a s = Ok (a1, p1, r) -> bytes_ok s -> bytes_ok r).
  { intros St limit f s p a a1 p1 r R Bs. pose proof (read_loop_o_pos _ _ _ _ _ _ _ _ R) as (_ & _ & _ & _ & E).
    rewrite E in Bs. apply Forall_app in Bs. apply Bs. }
  destruct (read_loop_o curLen1 epos1 script_len_step elen1 st1') as [[[elen2 epos2] st2]|] eqn:R; cbn [bind] in H; [|discriminate].
  apply K in R; [|exact Bh].
  match type of H with context [if ?b then Ok _ else _] => destruct b end; [injection H as _ _ <- _; exact R|]. cbv zeta in H.
  match type of H with context [if ?b then Ok (mkWitness [] _ _ _ _ _ _ _ _ _, _, _, _) else _] => destruct b end; [injection H as _ _ <- _; exact R|].
  match type of H with bind ?e _ = _ => destruct e as [arr2|]; cbn [bind] in H; [|discriminate] end.
  destruct (read_loop_o _ epos2 _ arr2 st2) as [[[arr3 epos3] st3]|] eqn:R3; cbn [bind] in H; [|discriminate].
  apply K in R3; [|exact R].
  match type of H with context [if ?b then _ else _] => destruct b end; injection H as _ _ <- _; exact R3.
Qed.

Lemma elements_ok : forall fuel h p w pos st w2 pos2 st2 stop, wf h -> owned h (eff w p) -> wok w p -> bytes_ok st ->
  witness_elements fuel w pos st = Ok (w2, pos2, st2, stop) ->
  exists h2 p2, mw_elements fuel h p w pos st = Ok (h2, p2) /\
    (stop = true -> wi_status w2 = FAILED) /\
    (stop = false -> moved h (eff w p) h2 (eff w2 p2) /\ wok w2 p2 /\ (wi_len w2 = 0 -> h2 = h /\ p2 = p /\ wi_len w = 0)).
Proof.
  induction fuel as [|k IH]; intros h p w pos st w2 pos2 st2 stop W O G B H.
  - destruct st as [|b t]; cbn [witness_elements mw_elements] in *.
    + injection H as <- _ _ <-. exists h, p. split; [reflexivity|]. split; [discriminate|]. intros _.
      split; [apply moved_refl; auto|]. repeat split; auto; apply G.
    + destruct (wi_cur w <? wi_num w); [discriminate|]. injection H as <- _ _ <-. exists h, p.
      split; [reflexivity|]. split; [discriminate|]. intros _. split; [apply moved_refl; auto|]. repeat split; auto; apply G.
  - destruct st as [|b t]; cbn [witness_elements mw_elements] in *.
    + injection H as <- _ _ <-. exists h, p. split; [reflexivity|]. split; [discriminate|]. intros _.
      split; [apply moved_refl; auto|]. repeat split; auto; apply G.
    + destruct (wi_cur w <? wi_num w).
      2:{ injection H as <- _ _ <-. exists h, p.
          split; [reflexivity|]. split; [discriminate|]. intros _. split; [apply moved_refl; auto|]. repeat split; auto; apply G. }
      destruct (witness_element w pos (b :: t)) as [[[[w1 pos1] st1] stop1]|] eqn:E; cbn [bind] in H; [|discriminate].
      destruct (element_ok h p w pos (b :: t) w1 pos1 st1 stop1 W O G B E) as (h1 & p1 & -> & U & F & K). cbn [bind].
      assert (Us : (if 0 <? wi_len w1 then huse h1 p1 else Ok tt) = Ok tt).
      { destruct (Z.ltb_spec 0 (wi_len w1)); auto. }
      rewrite Us. cbn [bind]. destruct stop1.
      * injection H as <- _ _ <-. exists h1, p1. split; [reflexivity|]. split; [exact F|discriminate].
      * destruct (K eq_refl) as (M & G1 & Z1).
        destruct (IH h1 p1 w1 pos1 st1 w2 pos2 st2 stop (moved_wf _ _ _ _ M) (moved_owned _ _ _ _ M) G1 (element_rest _ _ _ _ _ _ _ E B) H)
          as (h2 & p2 & -> & F2 & K2).
        exists h2, p2. split; [reflexivity|]. split; [exact F2|]. intros S. destruct (K2 S) as (M2 & G2 & Z2).
        split; [eapply moved_trans; eauto|]. split; [exact G2|]. intros L. destruct (Z2 L) as (-> & -> & L1). apply Z1, L1.
Qed.

Lemma witness_push_total w d : 0 <= wi_len w ->
  exists w', witness_push w d = Ok w' /\
    (wi_len w + len d + lenVarInt (len d) <= MAX_SCRIPT_SIZE -> 0 < wi_len w' /\ wi_elen w' = wi_elen w).
Proof.
  intros L. unfold witness_push. pose proof (len_nonneg _ d). pose proof (lenVarInt_pos (len d)).
  destruct (Z.gtb_spec (wi_len w + len d + lenVarInt (len d)) MAX_SCRIPT_SIZE).
  - eexists. split; [reflexivity|]. lia.
  - unfold MAX_SCRIPT_SIZE in *. assert (R : 0 <= len d < 2^64) by lia.
    rewrite writeVarInt_spec; [|exact R|]; cbn [bind].
    + eexists. split; [reflexivity|]. intros _. cbn [wi_len wi_elen]. split; [lia|reflexivity].
    + rewrite lenVarInt_spec by lia. unfold zeros, len. rewrite repeat_length. lia.
Qed.

(** What a call leaves behind when the guard holds. *)
Definition wresult (h : heap) (m : mwitness) (h' : heap) (m' : mwitness) : Prop :=
  ((mw_len m' = 0 -> mw_len m = 0) /\ wi_status (mw_val m') <> FAILED) ->
  moved h (mw_ptr m) h' (mw_ptr m') /\ wgood m'.

Lemma moved_weaken h h' p p' : moved h None h' p' -> moved h p h' p'.
Proof.
  intros (W & N & L & P). split; [exact W|]. split; [exact N|]. split; [intros q I _; apply L; auto; discriminate|].
  intros q E. destruct (P q E) as [I [C|C]]; [discriminate|auto].
Qed.

Lemma mw_clear_ok h m : wf h -> owned h (mw_ptr m) -> wgood m ->
  exists h' m', mw_clear h m = Ok (h', m') /\ wresult h m h' m' /\ wf h' /\
    mw_ptr m' = mw_ptr m /\ mw_val m' = witness_clear (mw_val m) /\
    moved h (mw_ptr m) h' (if 0 <? mw_len m then None else mw_ptr m) /\ (mw_len m = 0 -> h' = h).
Proof.
  intros W O (G1 & G2 & G3). unfold mw_clear. destruct (Z.ltb_spec 0 (mw_len m)) as [L|L].
  - destruct (hfree_ok h (mw_ptr m) W O) as (h' & E & M). rewrite E. cbn [bind].
    eexists _, _. split; [reflexivity|]. split.
    + intros [C _]. unfold mw_len in *. cbn [mw_val witness_clear wi_len] in C. specialize (C eq_refl). lia.
    + split; [apply M|]. cbn [mw_ptr mw_val]. split; [reflexivity|]. split; [reflexivity|]. split; [exact M|]. lia.
  - eexists _, _. split; [reflexivity|]. split.
    + intros _. split; [apply moved_refl; auto|]. unfold wgood, witness_clear. cbn [mw_val mw_ptr wi_len wi_elen]. repeat split; auto; lia.
    + cbn [mw_ptr mw_val]. split; [exact W|]. split; [reflexivity|]. split; [reflexivity|]. split; [apply moved_refl; auto|auto].
Qed.

Lemma mw_push_ok h m d : wf h -> owned h (mw_ptr m) -> wgood m ->
  exists h' m', mw_push h m d = Ok (h', m') /\ wresult h m h' m'.
Proof.
  intros W O G. pose proof G as (G1 & G2 & G3). unfold mw_push.
  destruct (witness_push_total (mw_val m) d G1) as (v & -> & V). cbn [bind].
  destruct (Z.gtb_spec (mw_len m + len d + lenVarInt (len d)) MAX_SCRIPT_SIZE) as [L|L].
  - destruct (mw_clear_ok h m W O G) as (h' & m' & E & R & _). eauto.
  - destruct (V L) as (V1 & V2).
    assert (Grow : exists h1 p1, (if mw_len m =? 0 then Ok (halloc h) else hrealloc h (mw_ptr m)) = Ok (h1, p1) /\ moved h (mw_ptr m) h1 p1 /\ p1 <> None).
    { destruct (mw_len m =? 0).
      - exists (fst (halloc h)), (snd (halloc h)). split; [destruct (halloc h); reflexivity|]. split; [apply moved_alloc, W|discriminate].
      - apply hrealloc_ok; auto. }
    destruct Grow as (h1 & p1 & -> & M & N). cbn [bind]. rewrite huse_ok by (auto; eapply moved_owned; exact M). cbn [bind].
    eexists _, _. split; [reflexivity|]. intros _. split; [exact M|]. unfold wgood. cbn [mw_val mw_ptr]. rewrite V2. repeat split; auto; lia.
Qed.

Lemma mw_copy_ok h m : wf h -> owned h (mw_ptr m) -> wgood m ->
  exists h' m', mw_copy h m = Ok (h', m') /\ moved h None h' (mw_ptr m') /\ wgood m'.
Proof.
  intros W O (G1 & G2 & G3). unfold mw_copy, mw_len. destruct (Z.ltb_spec 0 (wi_len (mw_val m))) as [L|L].
  - rewrite huse_ok by auto. cbn [bind]. pose proof (moved_alloc h None W) as M.
    assert (N : snd (halloc h) <> None) by discriminate. destruct (halloc h) as [h' p]. cbn [fst snd] in M, N.
    eexists _, _. split; [reflexivity|]. split; [exact M|]. unfold wgood, witness_copy. cbn [mw_val mw_ptr wi_len wi_elen].
    destruct (Z.ltb_spec 0 (wi_len (mw_val m))); repeat split; auto; lia.
  - eexists _, _. split; [reflexivity|]. split; [apply moved_forget, W|]. unfold wgood, witness_copy. cbn [mw_val mw_ptr wi_len wi_elen].
    destruct (Z.ltb_spec 0 (wi_len (mw_val m))); repeat split; auto; lia.
Qed.

Lemma mw_assign_ok h d s : wf h -> owned h (mw_ptr d) -> owned h (mw_ptr s) -> wgood d -> wgood s ->
  (forall q, mw_ptr d = Some q -> mw_ptr s <> Some q) ->
  exists h' m', mw_assign h d s = Ok (h', m') /\ wresult h d h' m'.
Proof.
  intros W Od Os Gd Gs D. unfold mw_assign.
  destruct (mw_clear_ok h d W Od Gd) as (h1 & d1 & -> & _ & W1 & P1 & _ & M & Same). cbn [bind].
  destruct Gd as (D1 & D2 & D3), Gs as (S1 & S2 & S3). unfold mw_len in *.
  destruct (Z.ltb_spec 0 (wi_len (mw_val s))) as [L|L].
  - assert (O1 : owned h1 (mw_ptr s)).
    { intros q Q. apply (moved_keep _ _ _ _ _ M); [apply Os, Q|]. intro C. exact (D q C Q). }
    rewrite huse_ok by auto. cbn [bind]. pose proof (moved_alloc h1 (if 0 <? wi_len (mw_val d) then None else mw_ptr d) W1) as M2.
    assert (N : snd (halloc h1) <> None) by discriminate. destruct (halloc h1) as [h2 p]. cbn [fst snd] in M2, N.
    eexists _, _. split; [reflexivity|]. intros _. split; [eapply moved_trans; eauto|].
    unfold wgood, witness_assign. cbn [mw_val mw_ptr wi_len wi_elen witness_clear].
    destruct (Z.ltb_spec 0 (wi_len (mw_val s))); repeat split; auto; lia.
  - eexists _, _. split; [reflexivity|]. intros [C _]. unfold mw_len, witness_assign in C. cbn [mw_val wi_len] in C.
    destruct (Z.ltb_spec 0 (wi_len (mw_val s))); [lia|]. specialize (C eq_refl). rewrite (Same C).
    cbn [mw_ptr]. rewrite P1. split; [apply moved_refl; auto|].
    unfold wgood, witness_assign. cbn [mw_val mw_ptr wi_len wi_elen witness_clear].
    destruct (Z.ltb_spec 0 (wi_len (mw_val s))); repeat split; auto; lia.
Qed.

Lemma wparse_tail h0 p w0 st w' n r : wf h0 -> owned h0 (eff w0 p) -> wok w0 p -> bytes_ok st ->
  witness_parse_body w0 st = Ok (w', n, r) ->
  exists h2 p2,
    (let '(num, lenLen, pos1, st1, failed) :=
        match st with
        | b :: t => if wi_parsed w0 =? 0 then (b, 1, 1, t, negb (b <? 253))
                    else (wi_num w0, wi_lenLen w0, wi_parsed w0, st, false)
        | [] => (wi_num w0, wi_lenLen w0, wi_parsed w0, st, false)
        end in
      if failed || ((pos1 =? lenLen) && negb (lenVarInt num =? lenLen)) then Ok (Some (h0, mkMw p w'))
      else
        let w1 := mkWitness (wi_arr w0) (wi_len w0) num (wi_cur w0) (wi_elen w0) (wi_eparsed w0)
                    (wi_curLen w0) lenLen INCOMPLETE (wi_parsed w0) in
        let! r2 := mw_elements (S (length st1)) h0 p w1 pos1 st1 in
        let '(h2, p2) := r2 in
        Ok (Some (h2, mkMw p2 w'))) = Ok (Some (h2, mkMw p2 w')) /\
    (wi_status w' <> FAILED -> moved h0 (eff w0 p) h2 (eff w' p2) /\ wok w' p2 /\ (wi_len w' = 0 -> h2 = h0 /\ p2 = p)).
Proof.
  intros W O G B H. unfold witness_parse_body in H. cbv zeta in H.
  assert (Main : forall num lenLen pos1 st1, bytes_ok st1 ->
    (let w1 := mkWitness (wi_arr w0) (wi_len w0) num (wi_cur w0) (wi_elen w0) (wi_eparsed w0)
                    (wi_curLen w0) lenLen INCOMPLETE (wi_parsed w0) in
     let! r := witness_elements (S (length st1)) w1 pos1 st1 in
     let '(w2, pos2, st2, stop) := r in
     if stop then Ok (w2, pos2 - wi_parsed w0, st2)
     else Ok (mkWitness (wi_arr w2) (wi_len w2) (wi_num w2) (wi_cur w2) (wi_elen w2) (wi_eparsed w2)
                            (wi_curLen w2) (wi_lenLen w2) (if wi_cur w2 =? wi_num w2 then DONE else INCOMPLETE) pos2, pos2 - wi_parsed w0, st2))
      = Ok (w', n, r) ->
    exists h2 p2, (let w1 := mkWitness (wi_arr w0) (wi_len w0) num (wi_cur w0) (wi_elen w0) (wi_eparsed w0)
                    (wi_curLen w0) lenLen INCOMPLETE (wi_parsed w0) in
        let! r2 := mw_elements (S (length st1)) h0 p w1 pos1 st1 in
        let '(h2, p2) := r2 in
        Ok (Some (h2, mkMw p2 w'))) = Ok (Some (h2, mkMw p2 w')) /\
    (wi_status w' <> FAILED -> moved h0 (eff w0 p) h2 (eff w' p2) /\ wok w' p2 /\ (wi_len w' = 0 -> h2 = h0 /\ p2 = p))).
  { clear H. intros num lenLen pos1 st1 B1. cbv zeta.
    set (w1 := mkWitness (wi_arr w0) (wi_len w0) num (wi_cur w0) (wi_elen w0) (wi_eparsed w0)
                    (wi_curLen w0) lenLen INCOMPLETE (wi_parsed w0)).
    destruct (witness_elements (S (length st1)) w1 pos1 st1) as [[[[w2 pos2] st2] stop]|] eqn:E; cbn [bind]; [|discriminate].
    intros H.
    destruct (elements_ok (S (length st1)) h0 p w1 pos1 st1 w2 pos2 st2 stop W O G B1 E) as (h2 & p2 & -> & F & K). cbn [bind].
    exists h2, p2. split; [reflexivity|]. intros S. destruct stop.
    - injection H as <- _ _. exfalso. apply S, F. reflexivity.
    - destruct (K eq_refl) as (M & G2 & Z2). injection H as <- _ _. split; [exact M|]. split; [exact G2|].
      cbn [wi_len]. intros L. destruct (Z2 L) as (-> & -> & _). auto. }
  destruct st as [|b t]; [|destruct (wi_parsed w0 =? 0); [destruct (b <? 253)|]]; cbn [negb orb wi_lenLen wi_num] in H |- *.
  - destruct ((wi_parsed w0 =? wi_lenLen w0) && negb (lenVarInt (wi_num w0) =? wi_lenLen w0)).
    + exists h0, p. split; [reflexivity|]. injection H as <- _ _. intros C. exfalso. apply C. reflexivity.
    + apply Main; auto.
  - destruct ((1 =? 1) && negb (lenVarInt b =? 1)).
    + exists h0, p. split; [reflexivity|]. injection H as <- _ _. intros C. exfalso. apply C. reflexivity.
    + apply Main; [exact (Forall_inv_tail B)|exact H].
  - exists h0, p. split; [reflexivity|]. injection H as <- _ _. intros C. exfalso. apply C. reflexivity.
  - destruct ((wi_parsed w0 =? wi_lenLen w0) && negb (lenVarInt (wi_num w0) =? wi_lenLen w0)).
    + exists h0, p. split; [reflexivity|]. injection H as <- _ _. intros C. exfalso. apply C. reflexivity.
    + apply Main; [exact B|exact H].
Qed.

Lemma mw_parse_ok h m st : wf h -> owned h (mw_ptr m) -> wgood m -> bytes_ok st ->
  mw_parse h m st = Ok None \/
  exists h' m', mw_parse h m st = Ok (Some (h', m')) /\ wresult h m h' m'.
Proof.
  intros W O G B. unfold mw_parse. destruct (witness_parse (mw_val m) st) as [[[w' n] r]|] eqn:P.
  2:{ left. destruct (wi_status (mw_val m)); reflexivity. }
  right. pose proof G as (G1 & G2 & G3). unfold witness_parse in P. destruct (wi_status (mw_val m)) eqn:S.
  - destruct (mw_clear_ok h m W O G) as (h0 & m0 & -> & _ & W0 & P0 & _ & M & Same). cbn [bind]. rewrite P0.
    set (w0 := witness_clear (mkWitness (wi_arr (mw_val m)) (wi_len (mw_val m)) (wi_num (mw_val m)) 0 0 0 0 0 DONE 0)) in *.
    assert (E0 : eff w0 (mw_ptr m) = None) by reflexivity.
    destruct (wparse_tail h0 (mw_ptr m) w0 st w' n r W0) as (h2 & p2 & E & K); auto.
    + rewrite E0. intros q C. discriminate.
    + unfold wok, w0, witness_clear. cbn [wi_len wi_elen]. repeat split; lia.
    + exists h2, (mkMw p2 w'). split; [exact E|]. intros [C F]. cbn [mw_val mw_ptr] in *. destruct (K F) as (M2 & (K1 & K2 & K3) & K4).
      rewrite E0 in M2. unfold mw_len in *. cbn [mw_val] in C.
      split; [|unfold wgood; cbn [mw_val mw_ptr]; auto].
      destruct (Z.ltb_spec 0 (wi_len w')) as [L|L].
      * assert (Ef : eff w' p2 = p2). { unfold eff. destruct (Z.ltb_spec 0 (wi_len w')); [reflexivity|lia]. } rewrite Ef in M2.
        eapply moved_trans; [exact W|exact M|]. apply moved_weaken. exact M2.
      * assert (L0 : wi_len w' = 0) by lia. destruct (K4 L0) as (-> & ->). rewrite (Same (C L0)). apply moved_refl; auto.
  - cbn [bind]. destruct (wparse_tail h (mw_ptr m) (mw_val m) st w' n r W) as (h2 & p2 & E & K); auto.
    + unfold eff. destruct (0 <? wi_len (mw_val m)); [exact O|intros q C; discriminate].
    + exists h2, (mkMw p2 w'). split; [exact E|]. intros [C F]. cbn [mw_val mw_ptr] in *. destruct (K F) as (M2 & (K1 & K2 & K3) & K4).
      unfold mw_len in *. cbn [mw_val] in C.
      split; [|unfold wgood; cbn [mw_val mw_ptr]; auto].
      destruct (Z.ltb_spec 0 (wi_len w')) as [L|L].
      * assert (Ef : eff w' p2 = p2). { unfold eff. destruct (Z.ltb_spec 0 (wi_len w')); [reflexivity|lia]. } rewrite Ef in M2.
        unfold eff in M2. destruct (0 <? wi_len (mw_val m)); [exact M2|apply moved_weaken, M2].
      * assert (L0 : wi_len w' = 0) by lia. destruct (K4 L0) as (-> & ->). apply moved_refl; auto.
  - injection P as <- _ _. exists h, m. split; [reflexivity|]. intros _. split; [apply moved_refl; auto|exact G].
Qed.

Definition winv (st : wstate) : Prop := inv mw_ptr wgood (fst st) (snd st).
Lemma winv_empty : winv (heap_empty, []).
Proof.
  split; [intros q []|]. split.
  - intros i m E. unfold obj in E. destruct i; discriminate.
  - intros i j m n q _ E. unfold obj in E. destruct i; discriminate.
Qed.

Lemma wstep_ok st o : winv st -> witness_call o ->
  exists r, wstep st o = Ok r /\ forall st', r = Some st' -> intact (snd st) (snd st') -> winv st'.
Proof.
  destruct st as [h l]. intros I Ho. pose proof (proj1 I) as W. cbn [fst snd] in *.
  assert (Put0 : forall i m h' m', obj l i = Some m -> wresult h m h' m' ->
    forall st', Some (h', put l i (Some m')) = Some st' -> intact l (snd st') -> winv st').
  { intros i m h' m' E R st' F Int. injection F as <-. cbn [snd] in Int.
    destruct (R (Int i m m' E (obj_put_same _ _ _ _ E))) as (M & G).
    eapply (inv_put _ _ h l i m h' (Some m')); eauto. intros m2 F. injection F as <-. exact G. }
  assert (Put : forall i m r, obj l i = Some m -> (exists h' m', r = Ok (h', m') /\ wresult h m h' m') ->
    exists x, (let! x := r in Ok (Some (fst x, put l i (Some (snd x))))) = Ok x /\ forall st', x = Some st' -> intact l (snd st') -> winv st').
  { intros i m r E (h' & m' & -> & R). cbn [bind fst snd]. eexists. split; [reflexivity|]. eapply Put0; eauto. }
  assert (Same : exists x, Ok (Some (h, l)) = Ok x /\ forall st', x = Some st' -> intact l (snd st') -> winv st').
  { eexists. split; [reflexivity|]. intros st' F _. injection F as <-. exact I. }
  pose proof (inv_owned mw_ptr wgood h l) as Ow. pose proof (inv_good mw_ptr wgood h l) as Go.
  destruct o as [|i|i j|i data|i|i bytes|i|i]; cbn [wstep]; cbv zeta.
  - eexists. split; [reflexivity|]. intros st' F _. injection F as <-. eapply inv_add; eauto.
    + apply moved_forget, W.
    + unfold wgood. cbn. repeat split; lia.
  - destruct (obj l i) as [m|] eqn:E; [|exact Same].
    destruct (mw_copy_ok h m) as (h' & m' & -> & M & G); eauto. cbn [bind fst snd].
    eexists. split; [reflexivity|]. intros st' F _. injection F as <-. eapply inv_add; eauto.
  - destruct (obj l i) as [d|] eqn:E; [|exact Same]. destruct (obj l j) as [s|] eqn:F; [|exact Same].
    destruct (Nat.eqb_spec i j) as [->|Ne]; [exact Same|]. eapply Put; [exact E|]. apply mw_assign_ok; eauto.
    intros q. destruct I as (_ & _ & D). apply (D i j d s q Ne E F).
  - destruct (obj l i) as [m|] eqn:E; [|exact Same]. eapply Put; [exact E|]. apply mw_push_ok; eauto.
  - destruct (obj l i) as [m|] eqn:E; [|exact Same]. eapply Put; [exact E|].
    destruct (mw_clear_ok h m W) as (h' & m' & X & R & _); eauto.
  - destruct (obj l i) as [m|] eqn:E; [|exact Same].
    destruct (mw_parse_ok h m bytes W (Ow _ _ I E) (Go _ _ I E) Ho) as [->|(h' & m' & -> & R)]; cbn [bind].
    + eexists. split; [reflexivity|discriminate].
    + eexists. split; [reflexivity|]. eapply Put0; eauto.
  - destruct (obj l i) as [m|] eqn:E; [|exact Same].
    assert (U : mw_read h m = Ok tt).
    { unfold mw_read. destruct (Z.ltb_spec 0 (mw_len m)) as [L|L]; [|reflexivity]. apply huse_ok; eauto. apply (Go _ _ I E), L. }
    rewrite U. exact Same.
  - destruct (obj l i) as [m|] eqn:E; [|exact Same].
    unfold mw_destroy. destruct (hfree_ok h (mw_ptr m) W (Ow _ _ I E)) as (h' & -> & M). cbn [bind].
    eexists. split; [reflexivity|]. intros st' F _. injection F as <-. eapply (inv_put _ _ h l i m h' None); eauto. discriminate.
Qed.

Lemma wrun_safe : forall ops st, winv st -> Forall witness_call ops -> always_intact st ops -> wrun st ops <> UB.
Proof.
  induction ops as [|o t IH]; intros st I F K; cbn [wrun always_intact] in *; [discriminate|].
  destruct (wstep_ok st o I (Forall_inv F)) as (r & E & N). rewrite E in *. cbn [bind].
  destruct r as [st'|]; [|discriminate]. destruct K as [K1 K2]. apply IH; [apply N; auto|exact (Forall_inv_tail F)|exact K2].
Qed.

(** ** Histories that free twice *)
Lemma push_fresh d : len d <= 9990 ->
  exists v, 0 < wi_len v /\ wrun (heap_empty, []) [WNew; WPush 0 d] = Ok (Some (mkHeap 1 [0%nat], [Some (mkMw (Some 0%nat) v)])).
Proof.
  intros L. pose proof (len_nonneg _ d). destruct (witness_push_total witness_new d ltac:(cbn; lia)) as (v & E & V).
  exists v. assert (C : wi_len witness_new + len d + lenVarInt (len d) <= MAX_SCRIPT_SIZE).
  { change (wi_len witness_new) with 0. unfold lenVarInt, MAX_SCRIPT_SIZE. repeat match goal with |- context [if ?b then _ else _] => destruct b end; lia. }
  split; [apply V, C|]. cbn [wrun wstep app obj nth bind]. unfold mw_push. cbn [mw_val]. rewrite E. cbn [bind]. unfold mw_len. cbn [mw_val].
  destruct (Z.gtb_spec (wi_len witness_new + len d + lenVarInt (len d)) MAX_SCRIPT_SIZE); [lia|]. reflexivity.
Qed.
Lemma wrun_app : forall a b st, wrun st (a ++ b) = let! r := wrun st a in match r with None => Ok None | Some st' => wrun st' b end.
Proof.
  induction a as [|o t IH]; intros b st; cbn [wrun app bind]; [reflexivity|].
  destruct (wstep st o) as [[st'|]|]; cbn [bind]; auto.
Qed.
Lemma clear_twice d : len d <= 9990 -> wrun (heap_empty, []) [WNew; WPush 0 d; WClear 0; WDestroy 0] = UB.
Proof.
  intros L. destruct (push_fresh d L) as (v & P & E).
  change [WNew; WPush 0 d; WClear 0; WDestroy 0] with ([WNew; WPush 0 d] ++ [WClear 0; WDestroy 0]). rewrite wrun_app, E. cbn [bind wrun wstep obj nth].
  unfold mw_clear, mw_len. cbn [mw_val mw_ptr]. destruct (Z.ltb_spec 0 (wi_len v)); [|lia]. reflexivity.
Qed.
Lemma assign_twice d : len d <= 9990 -> wrun (heap_empty, []) [WNew; WPush 0 d; WNew; WAssign 0 1; WDestroy 0] = UB.
Proof.
  intros L. destruct (push_fresh d L) as (v & P & E).
  change [WNew; WPush 0 d; WNew; WAssign 0 1; WDestroy 0] with ([WNew; WPush 0 d] ++ [WNew; WAssign 0 1; WDestroy 0]). rewrite wrun_app, E. cbn [bind wrun wstep obj nth app Nat.eqb].
  unfold mw_assign, mw_clear, mw_len. cbn [mw_val mw_ptr]. destruct (Z.ltb_spec 0 (wi_len v)); [|lia]. reflexivity.
Qed.
Lemma push_twice d e : len d <= 9990 -> 10000 <= len e -> wrun (heap_empty, []) [WNew; WPush 0 d; WPush 0 e; WDestroy 0] = UB.
Proof.
  intros L Le. destruct (push_fresh d L) as (v & P & E).
  change [WNew; WPush 0 d; WPush 0 e; WDestroy 0] with ([WNew; WPush 0 d] ++ [WPush 0 e; WDestroy 0]). rewrite wrun_app, E. cbn [bind wrun wstep obj nth].
  unfold mw_push. cbn [mw_val]. destruct (witness_push_total v e ltac:(lia)) as (v2 & E2 & _). rewrite E2. cbn [bind]. unfold mw_len at 1. cbn [mw_val].
  pose proof (lenVarInt_pos (len e)). destruct (Z.gtb_spec (wi_len v + len e + lenVarInt (len e)) MAX_SCRIPT_SIZE); [|unfold MAX_SCRIPT_SIZE in *; lia].
  unfold mw_clear, mw_len. cbn [mw_val mw_ptr]. destruct (Z.ltb_spec 0 (wi_len v)); [|lia]. reflexivity.
Qed.
(** One message to the parser: two elements, the second declared 2^31 - 1 bytes long. *)
Lemma parse_twice b : byte_ok b -> wrun (heap_empty, []) [WNew; WParse 0 [2; 1; b; 254; 255; 255; 255; 127]; WDestroy 0] = UB.
Proof. intros _. vm_compute. reflexivity. Qed.
Lemma reparse_twice b : byte_ok b -> wrun (heap_empty, []) [WNew; WParse 0 [1; 1; b]; WParse 0 [0]; WDestroy 0] = UB.
Proof. intros _. vm_compute. reflexivity. Qed.
