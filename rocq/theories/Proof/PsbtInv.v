(** What holds of a PSBT object after parsing arbitrary bytes. *)
From Coq Require Import Lia.
From Verif Require Import Base.Bytes Base.BytesFacts Spec.Wire Model.Conversion Model.Stream Model.Script Model.Tx Model.Signature Model.Point Model.PSBT
  Proof.TxIo Proof.PsbtFacts.
Open Scope Z_scope.

Definition shaped (p : psbt) : Prop :=
  exists ins outs, ps_ins p = Some ins /\ ps_outs p = Some outs /\ length ins = length (t_ins (ps_tx p)) /\ length outs = length (t_outs (ps_tx p)) /\
    Forall (fun m => Forall (fun d => d_set d = true) (im_ders m)) ins /\ Forall (fun m => Forall (fun d => d_set d = true) (om_ders m)) outs.

Section Inv.
Variable dsha : list Z -> list Z.
Variable garbage : list Z.

Ltac inv_bind H :=
  match type of H with
  | bind ?e _ = Ok _ => let E := fresh "E" in let x := fresh "x" in destruct e as [x|] eqn:E; cbn [bind] in H; [|discriminate H]
  end.

Lemma grow_set : forall l x l', grow l x = Ok l' -> Forall (fun d => d_set d = true) l -> d_set x = true -> Forall (fun d => d_set d = true) l'.
Proof. intros l x l' H F S. unfold grow in H. destruct (u8 (len l + 1) =? 0); [discriminate|]. injection H as <-. apply Forall_app. split; auto. Qed.
Lemma add_deriv_set : forall l k v key val l' res, add_deriv garbage l k v key val = Ok (l', res) -> 0 <= res -> Forall (fun d => d_set d = true) l -> Forall (fun d => d_set d = true) l'.
Proof.
  intros l k v key val l' res H R F. unfold add_deriv in H. destruct (negb _ && negb _); [injection H as <- <-; lia|]. cbv zeta in H.
  inv_bind H. destruct (pt_status x); [|inv_bind H; injection H as <- <-; lia|inv_bind H; injection H as <- <-; lia].
  inv_bind H. inv_bind H. inv_bind H. injection H as <- <-. eapply grow_set; eauto.
Qed.
Lemma add_input_set : forall m i k v key val code m' res, add_input dsha garbage m i k v key val code = Ok (m', res) -> 0 <= res ->
  Forall (fun d => d_set d = true) (im_ders m) -> Forall (fun d => d_set d = true) (im_ders m').
Proof.
  intros m i k v key val code m' res H R F. unfold add_input in H. cbv zeta in H.
  repeat match type of H with
  | (if ?c then _ else _) = _ => destruct c
  | bind ?e _ = Ok _ => let E := fresh "E" in let x := fresh "x" in destruct e as [x|] eqn:E; cbn [bind] in H; [|discriminate H]
  | match t_status ?x with _ => _ end = _ => destruct (t_status x)
  end; try (injection H as <- <-; auto; fail).
  injection H as <- <-. cbn [im_ders]. match goal with E : add_deriv _ _ _ _ _ _ = Ok ?y |- _ => destruct y as [l' r'] end. eapply add_deriv_set; eauto.
Qed.
Lemma add_output_set : forall m k v key val code m' res, add_output garbage m k v key val code = Ok (m', res) -> 0 <= res ->
  Forall (fun d => d_set d = true) (om_ders m) -> Forall (fun d => d_set d = true) (om_ders m').
Proof.
  intros m k v key val code m' res H R F. unfold add_output in H. cbv zeta in H.
  repeat match type of H with
  | (if ?c then _ else _) = _ => destruct c
  | bind ?e _ = Ok _ => let E := fresh "E" in let x := fresh "x" in destruct e as [x|] eqn:E; cbn [bind] in H; [|discriminate H]
  end; try (injection H as <- <-; auto; fail).
  injection H as <- <-. cbn [om_ders]. match goal with E : add_deriv _ _ _ _ _ _ = Ok ?y |- _ => destruct y as [l' r'] end. eapply add_deriv_set; eauto.
Qed.
Lemma put_length : forall {A} (l : list A) i x, length (put_at l i x) = length l.
Proof. induction l; intros [|i] x; cbn [put_at length]; auto. Qed.
Lemma put_Forall : forall {A} (P : A -> Prop) l i x, Forall P l -> P x -> Forall P (put_at l i x).
Proof. intros A P l i x F X. revert i. induction F; intros [|i]; cbn [put_at]; constructor; auto. Qed.
Lemma at_In : forall {A} (l : list A) i x, at_ptr (Some l) i = Ok x -> In x l.
Proof. intros A l i x H. unfold at_ptr in H. destruct (i <? 0); [discriminate|]. destruct (nth_error l (Z.to_nat i)) eqn:E; [|discriminate]. injection H as <-. eapply nth_error_In; eauto. Qed.

Lemma add_shaped : forall p sec k v p' res, psbt_add dsha garbage p sec k v = Ok (p', res) -> 0 <= res -> shaped p ->
  shaped p' /\ ps_last p' = ps_last p /\ ps_tx p' = ps_tx p /\ ps_section p' = ps_section p /\ ps_status p' = ps_status p.
Proof.
  intros p sec k v p' res H R (ins & outs & EI & EO & LI & LO & FI & FO). unfold psbt_add in H.
  destruct (add_meta _ _ _ _ _ _ _) as [[m r]|] eqn:A; [|discriminate]. rewrite bind_ok in H. cbn [fst snd] in H. injection H as <- <-.
  split; [|repeat split]. unfold add_meta in A. cbv zeta in A.
  destruct ((sec =? 0) || (sec >? _)).
  { injection A as <- <-. exists ins, outs. repeat split; auto. }
  inv_bind A. inv_bind A. inv_bind A. unfold ps_metas in A. rewrite EI, EO in A. cbn [fst snd] in A.
  destruct (sec <? _).
  - destruct (at_ptr (Some ins) (u8 (sec - 1))) as [xm|] eqn:X; [|discriminate]. rewrite bind_ok in A. inv_bind A.
    destruct (add_input _ _ _ _ _ _ _ _ _) as [[y r']|] eqn:AI; [|discriminate]. rewrite bind_ok in A. cbn [fst snd put_ptr] in A. injection A as <- <-.
    exists (put_at ins (Z.to_nat (u8 (sec - 1))) y), outs. unfold ps_set_metas. cbn [ps_ins ps_outs ps_tx fst snd]. rewrite put_length.
    repeat split; auto. apply put_Forall; auto. eapply add_input_set; eauto. apply at_In in X. rewrite Forall_forall in FI. apply FI in X. exact X.
  - set (o := u8 (sec - 1 - len (t_ins (ps_tx p)))) in *. destruct (at_ptr (Some outs) o) as [xm|] eqn:X; [|discriminate]. rewrite bind_ok in A.
    destruct (add_output _ _ _ _ _ _ _) as [[y r']|] eqn:AI; [|discriminate]. rewrite bind_ok in A. cbn [fst snd put_ptr] in A. injection A as <- <-.
    exists ins, (put_at outs (Z.to_nat o) y). unfold ps_set_metas. cbn [ps_ins ps_outs ps_tx fst snd]. rewrite put_length.
    repeat split; auto. apply put_Forall; auto. eapply add_output_set; eauto. apply at_In in X. rewrite Forall_forall in FO. apply FO in X. exact X.
Qed.

(** Past the global transaction. *)
Definition past (p : psbt) : Prop := 5 < ps_last p /\ shaped p.
Lemma past_scripts : forall p k v, past p -> past (ps_set_value (ps_set_key p k) v).
Proof. intros p k v H. exact H. Qed.
Lemma past_advance : forall p n, 0 <= n -> past p -> past (ps_advance p n).
Proof. intros p n N [H S]. split; [cbn [ps_advance ps_last]; lia|exact S]. Qed.
Lemma round_past : forall p st p' n r, psbt_round dsha garbage p st = Ok (p', n, r, true) -> past p -> past p'.
Proof.
  intros p st p' n r H P. unfold psbt_round in H.
  destruct (parse_if _ (ps_key p) st) as [[[k1 n1] st1]|]; [|discriminate]. rewrite bind_ok in H. cbv beta iota in H.
  destruct (is_done k1 && (script_length k1 =? 1)).
  { injection H as <- <- <-. destruct P as [P S]. split; [cbn [ps_last]; lia|exact S]. }
  destruct (parse_if _ (ps_value p) st1) as [[[v2 n2] st2]|]; [|discriminate]. rewrite bind_ok in H. cbv beta iota in H.
  destruct (is_failed k1 || is_failed v2); [discriminate|].
  destruct (parse_if _ k1 st2) as [[[k3 n3] st3]|]; [|discriminate]. rewrite bind_ok in H. cbv beta iota in H.
  destruct (parse_if _ v2 st3) as [[[v4 n4] st4]|]; [|discriminate]. rewrite bind_ok in H. cbv beta iota zeta in H.
  destruct (is_done k3 && is_done v4).
  - destruct (psbt_add _ _ _ _ _ _) as [[p5 res]|] eqn:A; [|discriminate]. rewrite bind_ok in H. cbv beta iota in H.
    destruct (Z.ltb_spec res 0); [discriminate|]. injection H as <- <- <-. apply past_advance.
    + pose proof (script_length_range k3). pose proof (script_length_range v4). lia.
    + destruct (add_shaped _ _ _ _ _ _ A ltac:(lia) (proj2 P)) as (S & L & _). split; [|exact S]. rewrite L. exact (proj1 P).
  - injection H as <- <- <-. exact P.
Qed.
Lemma loop_past : forall fuel sections p n st p' n' r, psbt_loop dsha garbage fuel sections p n st = Ok (p', n', r, true) -> past p -> past p'.
Proof.
  induction fuel as [|f IH]; intros sections p n st p' n' r H P; destruct st as [|c st]; cbn [psbt_loop] in H.
  - injection H as <- <- <-. auto.
  - destruct (ps_section p <? sections); [discriminate|]. injection H as <- <- <-. auto.
  - injection H as <- <- <-. auto.
  - destruct (ps_section p <? sections); [|injection H as <- <- <-; auto].
    destruct (psbt_round _ _ _ _) as [[[[p1 n1] st1] [|]]|] eqn:R; [| |discriminate]; rewrite bind_ok in H; cbv beta iota in H; [|discriminate].
    eapply IH; eauto. eapply round_past; eauto.
Qed.
Lemma global_past : forall p p', psbt_global p = Ok (p', true) -> 5 <= ps_last p -> past p'.
Proof.
  intros p p' H L. unfold psbt_global in H. inv_bind H. destruct (if script_length (ps_key p) =? 2 then _ else _) as [bad|] eqn:E0 in H; [|discriminate]. rewrite bind_ok in H. destruct bad; [discriminate|]. inv_bind H.
  destruct (tx_parse _ _) as [[[t n] r]|]; [|discriminate]. rewrite bind_ok in H. cbv zeta in H. cbn [fst snd] in H.
  destruct (t_status t); try discriminate. injection H as <-.
  assert (X : 0 < script_length (ps_key p)).
  { destruct (Z.eqb_spec (script_length (ps_key p)) 2); [lia|]. discriminate. }
  split.
  - cbn [ps_advance ps_last ps_set_metas ps_key ps_value]. pose proof (script_length_range (ps_value p)). lia.
  - exists (repeat im_new (length (t_ins t))), (repeat om_new (length (t_outs t))). cbn [ps_advance ps_set_metas ps_ins ps_outs ps_tx fst snd].
    rewrite !repeat_length. repeat split; auto; apply Forall_forall; intros xx I; apply repeat_spec in I; subst xx; constructor.
Qed.

(** The state between two calls, from the first one on. *)
Definition between (q p : psbt) : Prop :=
  (ps_status p = INCOMPLETE /\ 0 <= ps_section p /\ ps_last p = 5 /\ ps_tx p = ps_tx q /\ ps_ins p = ps_ins q /\ ps_outs p = ps_outs q) \/ past p.
Lemma loop_zero : forall fuel p n st, 0 <= ps_section p -> psbt_loop dsha garbage fuel 0 p n st = Ok (p, n, st, true).
Proof. intros fuel p n st H. destruct st, fuel; cbn [psbt_loop]; try reflexivity; destruct (Z.ltb_spec (ps_section p) 0); try reflexivity; lia. Qed.
Lemma body_between : forall q p st p' n r, psbt_body dsha garbage p st = Ok (p', n, r) -> between q p -> ps_status p' <> FAILED ->
  between q p' /\ (ps_status p' = DONE -> past p').
Proof.
  intros q p st p' n r H B NF. unfold psbt_body in H.
  destruct (magic_loop _ _) as [[[pos st0] good]|]; [|discriminate]. rewrite bind_ok in H. cbv beta iota zeta in H.
  destruct good; cbn [negb] in H; [|injection H as <- <- <-; elim NF; reflexivity].
  destruct (parse_if _ (ps_key p) st0) as [[[k1 n1] st1]|]; [|discriminate]. rewrite bind_ok in H. cbv beta iota zeta in H.
  destruct (parse_if _ (ps_value p) st1) as [[[v2 n2] st2]|]; [|discriminate]. rewrite bind_ok in H. cbv beta iota zeta in H.
  destruct (parse_if _ k1 st2) as [[[k3 n3] st3]|]; [|discriminate]. rewrite bind_ok in H. cbv beta iota zeta in H.
  destruct (is_failed k3); [injection H as <- <- <-; elim NF; reflexivity|].
  destruct (parse_if _ v2 st3) as [[[v4 n4] st4]|]; [|discriminate]. rewrite bind_ok in H. cbv beta iota zeta in H.
  destruct (is_failed v4); [injection H as <- <- <-; elim NF; reflexivity|].
  set (p4 := ps_set_value (ps_set_key p k3) v4) in *.
  assert (B4 : between q p4) by exact B.
  destruct (if (ps_last p4 =? 5) && is_done v4 && is_done k3 then psbt_global p4 else Ok (p4, true)) as [[p5 good]|] eqn:G; [|discriminate].
  rewrite bind_ok in H. cbv beta iota zeta in H. destruct good; cbn [negb] in H; [|injection H as <- <- <-; elim NF; reflexivity].
  assert (B5 : past p5 \/ (p5 = p4 /\ ps_last p4 = 5)).
  { destruct ((ps_last p4 =? 5) && is_done v4 && is_done k3) eqn:C.
    - left. eapply global_past; eauto. apply andb_prop in C as [C _]. apply andb_prop in C as [C _]. apply Z.eqb_eq in C. lia.
    - injection G as <-. destruct B4 as [(_ & _ & L & _)|P]; auto. }
  destruct (psbt_loop _ _ _ _ _ _ _) as [[[[p6 n6] st6] good]|] eqn:LP; [|discriminate]. rewrite bind_ok in H. cbv beta iota zeta in H.
  destruct good; cbn [negb] in H; [|injection H as <- <- <-; elim NF; reflexivity].
  destruct B5 as [P5|[-> L5]].
  - pose proof (loop_past _ _ _ _ _ _ _ _ LP P5) as P6. match type of H with (if ?c then _ else _) = _ => destruct c end; injection H as <- <- <-; (split; [right|intros _]); exact P6.
  - assert (SN : sections_number p4 = 0) by (unfold sections_number; rewrite L5; reflexivity). rewrite SN in *.
    destruct B4 as [(S4 & SE & B4)|P4]; [|destruct P4 as [P4 _]; lia].
    rewrite loop_zero in LP by auto. injection LP as <- <- <-.
    change (0 <? 0) with false in H. rewrite andb_false_r in H. injection H as <- <- <-.
    split; [left; repeat split; try apply B4; auto|discriminate].
Qed.

Lemma start_between : forall p p1, psbt_start p = Ok p1 -> between p1 p1.
Proof.
  intros p p1 H. unfold psbt_start in H. destruct (psbt_release p); [|discriminate]. rewrite bind_ok in H. cbv zeta in H. injection H as <-.
  left. cbn [ps_status ps_section ps_last]. repeat split; lia.
Qed.
Lemma feed_between : forall chunks q p p' n r, ps_status p = INCOMPLETE -> between q p ->
  feed (psbt_parse dsha garbage) ps_status p chunks = Ok (p', n, r) -> ps_status p' <> FAILED ->
  between q p' /\ (ps_status p' = DONE -> past p').
Proof.
  induction chunks as [|c chunks IH]; intros q p p' n r S B H NF; cbn [feed] in H.
  - injection H as <- <- <-. split; auto. rewrite S. discriminate.
  - unfold psbt_parse in H at 1. rewrite S in H. destruct (psbt_body dsha garbage p c) as [[[p1 n1] r1]|] eqn:E; [|discriminate].
    rewrite bind_ok in H. cbv beta iota in H. destruct (ps_status p1) eqn:S1.
    + injection H as <- <- <-. eapply body_between; eauto.
    + destruct (feed _ _ _ _) as [[[p2 n2] r2]|] eqn:F; [|discriminate]. rewrite bind_ok in H. cbv beta iota in H. injection H as <- <- <-.
      eapply IH; eauto. eapply body_between; eauto. rewrite S1. discriminate.
    + injection H as <- <- <-. congruence.
Qed.
Lemma feed_new : forall chunks p n r, feed (psbt_parse dsha garbage) ps_status psbt_new chunks = Ok (p, n, r) -> ps_status p <> FAILED ->
  (ps_tx p = tx_new /\ ps_status p = INCOMPLETE \/ chunks = [] /\ p = psbt_new) \/ shaped p.
Proof.
  intros [|c chunks] p n r H NF; cbn [feed] in H; [injection H as <- <- <-; auto|].
  unfold psbt_parse in H at 1. cbn [ps_status psbt_new] in H.
  destruct (psbt_start _) as [q|] eqn:Q; [|discriminate]. pose proof (start_between _ _ Q) as B.
  assert (TQ : ps_tx q = tx_new) by (vm_compute in Q; injection Q as <-; reflexivity).
  rewrite bind_ok in H. cbv beta in H. destruct (psbt_body dsha garbage q c) as [[[p1 n1] r1]|] eqn:E; [|discriminate].
  rewrite bind_ok in H. cbv beta iota in H.
  assert (X : between q p /\ (ps_status p = DONE -> past p)).
  { destruct (ps_status p1) eqn:S1.
    + injection H as <- <- <-. eapply body_between; eauto.
    + destruct (feed _ _ _ _) as [[[p2 n2] r2]|] eqn:F; [|discriminate]. rewrite bind_ok in H. cbv beta iota in H. injection H as <- <- <-.
      eapply feed_between; eauto. eapply body_between; eauto. rewrite S1. discriminate.
    + injection H as <- <- <-. congruence. }
  destruct X as [[(S & _ & _ & T & _)|[_ P]] D]; auto. left. left. split; [congruence|auto].
Qed.
End Inv.

(** ** What needs the shape *)
Lemma ders_set_free : forall l, Forall (fun d => d_set d = true) l -> ders_free l = Ok tt.
Proof. induction 1 as [|d l H F IH]; [reflexivity|]. cbn [ders_free]. unfold der_free. rewrite H, bind_ok. exact IH. Qed.
Lemma release_ok : forall {A} (ders : A -> list pderiv) n l, n = len l -> Forall (fun m => Forall (fun d => d_set d = true) (ders m)) l -> release ders n (Some l) = Ok tt.
Proof.
  intros A ders n l -> F. unfold release. destruct (0 <? len l); [|reflexivity]. rewrite Z.ltb_irrefl. unfold len. rewrite Nat2Z.id, firstn_all.
  induction F as [|m l H F IH]; [reflexivity|]. cbn [metas_free]. rewrite ders_set_free by auto. exact IH.
Qed.
Lemma shaped_release : forall p, shaped p -> psbt_release p = Ok tt.
Proof.
  intros p (ins & outs & EI & EO & LI & LO & FI & FO). unfold psbt_release. rewrite EI, EO.
  rewrite release_ok by (auto; unfold len; lia). rewrite bind_ok. apply release_ok; auto. unfold len. lia.
Qed.

Lemma zsum_cons : forall a l, zsum (a :: l) = a + zsum l.
Proof. reflexivity. Qed.
Lemma input_sum : forall ins pre p, ps_ins p = Some (pre ++ ins) -> forall acc, 0 <= acc -> Forall (fun m => 0 <= to_amount (im_out m)) ins ->
  acc + zsum (map (fun m => to_amount (im_out m)) ins) < 2^64 ->
  input_amount (length ins) p (len pre) acc =
  Ok (if existsb (fun m => to_amount (im_out m) =? 0) ins then None else Some (acc + zsum (map (fun m => to_amount (im_out m)) ins))).
Proof.
  induction ins as [|m ins IH]; intros pre p E acc A P L.
  - cbn [length input_amount existsb map zsum fold_right]. rewrite Z.add_0_r. reflexivity.
  - cbn [length input_amount existsb map]. rewrite E. unfold at_ptr. pose proof (len_nonneg _ pre). destruct (Z.ltb_spec (len pre) 0); [lia|].
    unfold len at 1. rewrite Nat2Z.id, nth_error_app2, Nat.sub_diag by lia. cbn [nth_error]. rewrite bind_ok. cbv beta.
    apply Forall_cons_iff in P as [P1 P2]. destruct (Z.eqb_spec (to_amount (im_out m)) 0) as [Z0|NZ]; [reflexivity|]. cbn [orb].
    cbn [map] in L. rewrite zsum_cons in *.
    assert (0 <= zsum (map (fun m => to_amount (im_out m)) ins)) by (clear -P2; induction P2; [reflexivity|cbn [map]; rewrite zsum_cons; lia]).
    rewrite u64_id by lia. specialize (IH (pre ++ [m]) p). rewrite <- app_assoc in IH. specialize (IH E (acc + to_amount (im_out m)) ltac:(lia) P2 ltac:(lia)).
    rewrite len_app in IH. change (len [m]) with 1 in IH. rewrite IH, Z.add_assoc. reflexivity.
Qed.
Lemma output_sum : forall l acc, 0 <= acc -> Forall (fun o => 0 <= to_amount o) l -> acc + zsum (map to_amount l) < 2^64 ->
  fold_left (fun a o => u64 (a + to_amount o)) l acc = acc + zsum (map to_amount l).
Proof.
  induction l as [|o l IH]; intros acc A P L; [cbn [fold_left map]; change (zsum []) with 0; lia|]. cbn [fold_left map] in *. rewrite zsum_cons in *. apply Forall_cons_iff in P as [P1 P2].
  assert (0 <= zsum (map to_amount l)) by (clear -P2; induction P2; [reflexivity|cbn [map]; rewrite zsum_cons; lia]).
  rewrite u64_id by lia. rewrite IH by (auto; lia). lia.
Qed.
Lemma output_mod : forall l acc, 0 <= acc < 2^64 -> fold_left (fun a o => u64 (a + to_amount o)) l acc = (acc + zsum (map to_amount l)) mod 2^64.
Proof.
  induction l as [|o l IH]; intros acc A; [cbn [fold_left map]; change (zsum []) with 0; rewrite Z.add_0_r, Z.mod_small; lia|]. cbn [fold_left map]. rewrite zsum_cons.
  rewrite IH by (unfold u64; dlia). unfold u64. rewrite Zplus_mod_idemp_l. f_equal. lia.
Qed.
Lemma fee_shaped : forall p ins, ps_ins p = Some ins -> length ins = length (t_ins (ps_tx p)) ->
  Forall (fun m => 0 <= to_amount (im_out m)) ins -> Forall (fun o => 0 <= to_amount o) (t_outs (ps_tx p)) ->
  zsum (map (fun m => to_amount (im_out m)) ins) < 2^64 -> zsum (map to_amount (t_outs (ps_tx p))) < 2^64 ->
  psbt_fee p = Ok (if existsb (fun m => to_amount (im_out m) =? 0) ins then 0
                   else Z.max 0 (zsum (map (fun m => to_amount (im_out m)) ins) - zsum (map to_amount (t_outs (ps_tx p))))).
Proof.
  intros p ins EI LI PI PO SI SO. unfold psbt_fee. pose proof (input_sum ins [] p EI 0 ltac:(lia) PI ltac:(lia)) as H. change (len (@nil inmeta)) with 0 in H.
  rewrite <- LI, H, bind_ok. cbv beta. destruct (existsb _ ins); [reflexivity|]. cbv zeta. unfold output_amount. rewrite output_sum by (auto; lia). rewrite !Z.add_0_l.
  set (b := zsum (map to_amount _)) in *. set (a := zsum _) in *.
  assert (0 <= b) by (unfold b; clear -PO; induction PO; [reflexivity|cbn [map]; rewrite zsum_cons; lia]).
  destruct (Z.ltb_spec a b); f_equal; [lia|]. rewrite u64_id by lia. lia.
Qed.
