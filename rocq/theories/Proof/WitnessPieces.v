(** Witnesses in pieces that do not end at an unlucky place inside the length of an element. *)
From Verif Require Import Base.Bytes Base.BytesFacts Model.Conversion Model.Stream Model.Script
  Spec.Codecs Spec.Wire Spec.Pieces Proof.IntVarint Proof.StreamFacts Proof.StreamTrace Proof.ScriptFacts Proof.WitnessFacts.
From Coq Require Import Lia.
Open Scope Z_scope.

Local Notation cs e := (compact_size (len e)).
(** [u] bytes of [e] are there: none, at least its length, or a part of the length. *)
Definition part_len_ok (e u : list Z) : Prop := u <> [] /\ (exists b, b <> [] /\ cs e = u ++ b) /\ len e mod 2^(8 * (len u - 1)) <> len u - 1.
Definition part_ok (e u v : list Z) : Prop := wire_bytes e = u ++ v /\ (u = [] \/ (exists a, u = cs e ++ a /\ e = a ++ v) \/ part_len_ok e u).
Definition room (e u v : list Z) : list Z := match u with [] => [] | _ => if len u <? len (cs e) then [] else u ++ zeros (length v) end.
Definition wst (n : Z) (els1 : list (list Z)) (e u v : list Z) (p : Z) : witness :=
  mkWitness (flat_map wire_bytes els1 ++ room e u v) (len (flat_map wire_bytes els1 ++ room e u v)) n (len els1)
    (match u with [] => 0 | _ => if len u <? len (cs e) then len e mod 2^(8 * (len u - 1)) else len e end) (len u) (match u with [] => 0 | _ => len (cs e) end) 1 INCOMPLETE p.
Lemma cs_pos : forall n, 0 <= n < 2^31 -> 1 <= len (compact_size n) <= 5.
Proof. intros n H. unfold compact_size. destruct (Z.ltb_spec n 253); [cbn; lia|]. destruct (Z.ltb_spec n (2^16)); [rewrite len_cons; unfold len; rewrite le_bytes_length; lia|]. destruct (Z.ltb_spec n (2^32)); [rewrite len_cons; unfold len; rewrite le_bytes_length; lia|lia]. Qed.
Lemma skipn_zeros : forall k n, skipn k (zeros n) = zeros (n - k).
Proof. unfold zeros. induction k; intros [|n]; cbn; auto. Qed.

Lemma loop_from : forall (f : Z -> Z -> Z -> outcome Z) t L j acc r acc1 j1, read_loop_o L j f acc t = Ok (acc1, j1, []) ->
  read_loop_o L j f acc (t ++ r) = read_loop_o L j1 f acc1 r.
Proof.
  induction t as [|c t IH]; intros L j acc r acc1 j1 H; cbn [read_loop_o app] in *.
  - injection H as <- <-. reflexivity.
  - destruct (j <? L); [|discriminate]. destruct (f acc j c) as [v|]; [|discriminate]. cbn [bind] in *. apply IH. exact H.
Qed.
Lemma loop_more : forall (f : Z -> Z -> Z -> outcome Z) t L L' j acc acc1 j1, read_loop_o L j f acc t = Ok (acc1, j1, []) -> L <= L' ->
  read_loop_o L' j f acc t = Ok (acc1, j1, []).
Proof.
  induction t as [|c t IH]; intros L L' j acc acc1 j1 H LL; cbn [read_loop_o] in *; [exact H|].
  destruct (Z.ltb_spec j L); [|discriminate]. destruct (Z.ltb_spec j L'); [|lia]. destruct (f acc j c) as [v|]; [|discriminate]. cbn [bind] in *. eapply IH; eauto.
Qed.
Lemma low_app : forall a b, le_val 256 (a ++ b) = le_val 256 a + 256 ^ len a * le_val 256 b.
Proof.
  induction a as [|c a IH]; intros b; cbn [app le_val]; [rewrite len_nil; lia|]. rewrite IH, len_cons, Z.pow_add_r by (pose proof (len_nonneg _ a); lia). lia.
Qed.
Lemma low_range : forall a, bytes_ok a -> 0 <= le_val 256 a < 256 ^ len a.
Proof.
  induction a as [|c a IH]; intros B; cbn [le_val]; [rewrite len_nil; lia|]. inversion B as [|? ? B1 B2]; subst. specialize (IH B2). unfold byte_ok in B1.
  rewrite len_cons, Z.pow_add_r by (pose proof (len_nonneg _ a); lia). lia.
Qed.
Lemma len_part : forall n u b, 0 <= n < 2^31 -> compact_size n = u ++ b -> u <> [] -> b <> [] ->
  exists c t, u = c :: t /\ (c <? 253) = false /\ varint_len c = len (compact_size n) /\ 0 <= n mod 2^(8 * (len u - 1)) < 2^31 /\
    read_loop_o (varint_len c) 1 script_len_step 0 t = Ok (n mod 2^(8 * (len u - 1)), len u, []).
Proof.
  intros n u b H E NU NB. destruct (varint_len_cs n ltac:(lia)) as (c & t & E' & V & S1 & S2).
  destruct u as [|c' t1]; [congruence|]. rewrite E in E'. cbn [app] in E'. assert (c' = c) by congruence. assert (T : t1 ++ b = t) by congruence. subst c' t. clear E'.
  exists c, t1. split; [reflexivity|].
  destruct (Z.lt_ge_cases n 253) as [HN|HN].
  { destruct (S1 HN) as [_ Q]. apply app_eq_nil in Q as [_ Q]. congruence. }
  destruct (S2 HN) as (Rb & Bt & Vt). destruct (Z.ltb_spec c 253); [lia|]. split; [reflexivity|]. split; [symmetry; exact V|].
  apply bytes_ok_app in Bt as [B1 B2].
  assert (L : len (compact_size n) = 1 + len t1 + len b) by (rewrite E; cbn [app]; rewrite len_cons, len_app; lia).
  pose proof (len_nonneg _ t1). assert (1 <= len b) by (destruct b; [congruence|rewrite len_cons; pose proof (len_nonneg _ b); lia]).
  rewrite low_app in Vt. pose proof (low_range t1 B1) as R1. rewrite len_cons.
  replace (8 * (1 + len t1 - 1)) with (8 * len t1) by lia.
  assert (M : n mod 2^(8 * len t1) = le_val 256 t1).
  { rewrite Z.pow_mul_r by lia. change (2^8) with 256. rewrite <- Vt. rewrite Z.mul_comm, Z_mod_plus_full. apply Z.mod_small. exact R1. }
  rewrite M. split.
  - rewrite <- M. pose proof (Z.mod_pos_bound n (2^(8 * len t1)) ltac:(apply Z.pow_pos_nonneg; lia)). pose proof (Z.mod_le n (2^(8 * len t1)) ltac:(lia) ltac:(apply Z.pow_pos_nonneg; lia)). lia.
  - pose proof (len_loop t1 [] 0 0 B1 ltac:(lia)) as LL. rewrite app_nil_r in LL. change (2^(8 * 0)) with 1 in LL.
    assert (C5 : len (compact_size n) <= 5).
    { unfold compact_size. destruct (Z.ltb_spec n 253); [cbn; lia|]. destruct (Z.ltb_spec n (2^16)); [rewrite len_cons, len_le_bytes; lia|]. destruct (Z.ltb_spec n (2^32)); [rewrite len_cons, len_le_bytes; lia|lia]. }
    assert (N31 : le_val 256 t1 < 2^31).
    { rewrite <- M. pose proof (Z.mod_le n (2^(8 * len t1)) ltac:(lia) ltac:(apply Z.pow_pos_nonneg; lia)). lia. }
    specialize (LL ltac:(lia) ltac:(lia) ltac:(lia)). change (1 + 0) with 1 in LL.
    replace (0 + 1 * le_val 256 t1) with (le_val 256 t1) in LL by lia.
    eapply loop_more; [exact LL|]. lia.
Qed.
Lemma read_full : forall e u s r E0 C0, 0 <= len e < 2^31 -> s <> [] -> u ++ s = cs e ++ r -> (u = [] \/ part_len_ok e u) ->
  (u <> [] -> E0 = len e mod 2^(8 * (len u - 1)) /\ C0 = len (cs e)) ->
  exists el ep st1, match s with b :: t => if len u =? 0 then if b <? 253 then (b, 1, 1, t) else (0, varint_len b, 1, t) else (E0, C0, len u, s) | [] => (E0, C0, len u, s) end
     = (el, len (cs e), ep, st1) /\ read_loop_o (len (cs e)) ep script_len_step el st1 = Ok (len e, len (cs e), r).
Proof.
  intros e u s r E0 C0 LE NS E P X. destruct (len_prefix (len e) r LE) as (b & t & EB & Bb & Sb & V & R).
  destruct P as [->|(NU & (q & NQ & EQ) & _)].
  - cbn [app] in E. rewrite E, EB. cbn [app]. change (len (@nil Z) =? 0) with true. cbv iota. rewrite <- EB.
    destruct (b <? 253); rewrite <- V in R |- *; eexists _, _, _; split; try reflexivity; exact R.
  - destruct (X NU) as [-> ->]. destruct (len_part (len e) u q LE EQ NU NQ) as (c & t1 & EU & C1 & V1 & _ & R1).
    destruct s as [|c0 s]; [congruence|]. replace (len u =? 0) with false by (symmetry; apply Z.eqb_neq; rewrite EU, len_cons; pose proof (len_nonneg _ t1); lia).
    eexists _, _, _. split; [reflexivity|]. rewrite EU, EB in E. cbn [app] in E. assert (b = c) by congruence. assert (T : t1 ++ c0 :: s = t ++ r) by congruence. subst b.
    rewrite C1, <- T in R. rewrite (loop_from _ _ _ _ _ _ _ _ R1) in R. rewrite V1 in R. exact R.
Qed.
Lemma read_short : forall e u s E0 C0, 0 <= len e < 2^31 -> s <> [] -> part_len_ok e (u ++ s) -> (u = [] \/ part_len_ok e u) ->
  (u <> [] -> E0 = len e mod 2^(8 * (len u - 1)) /\ C0 = len (cs e)) ->
  exists el ep st1, match s with b :: t => if len u =? 0 then if b <? 253 then (b, 1, 1, t) else (0, varint_len b, 1, t) else (E0, C0, len u, s) | [] => (E0, C0, len u, s) end
     = (el, len (cs e), ep, st1) /\ read_loop_o (len (cs e)) ep script_len_step el st1 = Ok (len e mod 2^(8 * (len (u ++ s) - 1)), len (u ++ s), []).
Proof.
  intros e u s E0 C0 LE NS (NU2 & (q2 & NQ2 & EQ2) & _) P X. destruct (len_part (len e) (u ++ s) q2 LE EQ2 NU2 NQ2) as (c & t & EU & C1 & V1 & _ & R).
  destruct P as [->|(NU & (q & NQ & EQ) & _)].
  - cbn [app] in *. destruct s as [|c0 s0]; [congruence|]. assert (c0 = c) by congruence. assert (s0 = t) by congruence. subst c0 s0. change (len (@nil Z) =? 0) with true. cbv iota. rewrite C1, V1. rewrite V1 in R.
    eexists _, _, _. split; [reflexivity|exact R].
  - destruct (X NU) as [-> ->]. destruct (len_part (len e) u q LE EQ NU NQ) as (c1 & t1 & EU1 & C11 & V11 & _ & R1).
    destruct s as [|c0 s]; [congruence|]. replace (len u =? 0) with false by (symmetry; apply Z.eqb_neq; rewrite EU1, len_cons; pose proof (len_nonneg _ t1); lia).
    eexists _, _, _. split; [reflexivity|]. rewrite EU1 in EU at 1. cbn [app] in EU. assert (c1 = c) by congruence. assert (T : t1 ++ c0 :: s = t) by congruence. subst c1 t.
    rewrite (loop_from _ _ _ _ _ _ _ _ R1) in R. rewrite V1 in R. exact R.
Qed.
Lemma element_short : forall n els1 e u v x y p, 0 <= n < 253 -> (u = [] \/ part_len_ok e u) -> part_len_ok e (u ++ x) -> x <> [] ->
  len (flat_map wire_bytes els1) + len (wire_bytes e) < 2^31 ->
  witness_element (wst n els1 e u v p) (1 + len (flat_map wire_bytes els1) + len u) x =
    Ok (wst n els1 e (u ++ x) y p, 1 + len (flat_map wire_bytes els1) + len u + len x, [], false).
Proof.
  intros n els1 e u v x y p N P1 P2 NX SZ. set (F := flat_map wire_bytes els1) in *.
  pose proof (len_nonneg _ e) as LE. pose proof (len_nonneg _ F) as LF. rewrite len_wire_bytes in SZ.
  pose proof (cs_pos (len e) ltac:(pose proof (len_nonneg _ (cs e)); lia)) as CP.
  assert (O1 : lenVarInt n = 1) by (unfold lenVarInt; destruct (Z.ltb_spec n 253); [auto|lia]).
  pose proof P2 as (NU2 & (q2 & NQ2 & EQ2) & UL).
  assert (SH : forall u', part_len_ok e u' -> len u' < len (cs e)).
  { intros u' (_ & (b & NB & EB) & _). rewrite EB, len_app. destruct b; [congruence|]. rewrite len_cons. pose proof (len_nonneg _ b). lia. }
  assert (RM : room e u v = []).
  { unfold room. destruct P1 as [->|P1]; [reflexivity|]. destruct u; [reflexivity|]. apply SH in P1. destruct (Z.ltb_spec (len (z :: u)) (len (cs e))); [reflexivity|lia]. }
  match goal with |- _ = ?R => set (RES := R) end.
  unfold witness_element, wst. rewrite RM. fold F.
  cbn [wi_num wi_eparsed wi_arr wi_len wi_cur wi_elen wi_curLen wi_lenLen wi_parsed]. rewrite O1.
  destruct (read_short e u x (match u with [] => 0 | _ => if len u <? len (cs e) then len e mod 2^(8 * (len u - 1)) else len e end) (match u with [] => 0 | _ => len (cs e) end)) as (el & ep & st1 & HM & HR); auto; [lia| |].
  { intros NU. destruct P1 as [->|P1]; [congruence|]. apply SH in P1. destruct u; [congruence|]. destruct (Z.ltb_spec (len (z :: u)) (len (cs e))); [auto|lia]. }
  rewrite HM, HR. cbn [bind]. pose proof (SH _ P2) as S2.
  set (k := len (u ++ x)) in *. set (low := len e mod 2^(8 * (k - 1))) in *.
  assert (K1 : 1 <= k) by (unfold k; destruct (u ++ x); [congruence|rewrite len_cons; pose proof (len_nonneg _ l); lia]).
  assert (LO : 0 <= low < 2^31).
  { unfold low. pose proof (Z.mod_pos_bound (len e) (2^(8 * (k - 1))) ltac:(apply Z.pow_pos_nonneg; lia)). pose proof (Z.mod_le (len e) (2^(8 * (k - 1))) ltac:(lia) ltac:(apply Z.pow_pos_nonneg; lia)). lia. }
  replace (k =? len (cs e)) with false by (symmetry; apply Z.eqb_neq; lia). rewrite andb_false_r. cbn [andb]. cbn [bind read_loop_o].
  assert (LV : 1 <= lenVarInt low <= 9 /\ (low < 253 -> lenVarInt low = 1)).
  { unfold lenVarInt. destruct (Z.ltb_spec low 253); [lia|]. repeat (match goal with |- context [if ?b then _ else _] => destruct b end); lia. }
  rewrite (u64_id (low + lenVarInt low)) by lia.
  replace (k =? low + lenVarInt low) with false by (symmetry; apply Z.eqb_neq; destruct (Z.lt_ge_cases low 253) as [Q|Q]; [rewrite (proj2 LV Q)|]; lia).
  unfold RES, wst. fold F. fold k. fold low.
  assert (RM2 : room e (u ++ x) y = []).
  { unfold room. fold k. destruct (u ++ x); [reflexivity|]. destruct (Z.ltb_spec k (len (cs e))); [reflexivity|lia]. }
  rewrite RM2. destruct (Z.ltb_spec k (len (cs e))); [|lia].
  assert (KX : k = len u + len x) by (unfold k; apply len_app).
  destruct (u ++ x) as [|c0 r0]; [congruence|]. rewrite !app_nil_r.
  do 3 f_equal. f_equal; lia.
Qed.
Lemma element_full : forall n els1 e u v x y w p, 0 <= n < 253 -> part_ok e u v -> v = x ++ y -> (exists a, u ++ x = cs e ++ a /\ e = a ++ y) -> x <> [] -> bytes_ok e ->
  len (flat_map wire_bytes els1) + len (wire_bytes e) < 2^31 -> y = [] \/ w = [] ->
  witness_element (wst n els1 e u v p) (1 + len (flat_map wire_bytes els1) + len u) (x ++ w) =
    Ok (match y with [] => wst n (els1 ++ [e]) [] [] [] p | _ => wst n els1 e (u ++ x) y p end, 1 + len (flat_map wire_bytes els1) + len u + len x, w, false).
Proof.
  intros n els1 e u v x y w p N P1 EV P3 NX BE SZ YW. set (F := flat_map wire_bytes els1) in *.
  pose proof (len_nonneg _ e) as LE. pose proof (len_nonneg _ F) as LF. rewrite len_wire_bytes in SZ.
  pose proof (cs_pos (len e) ltac:(pose proof (len_nonneg _ (cs e)); lia)) as CP.
  destruct P1 as [W1 P1]. assert (W2 : wire_bytes e = (u ++ x) ++ y) by (rewrite <- app_assoc, <- EV; exact W1).
  destruct P3 as (a & EA & EE).
  assert (O1 : lenVarInt n = 1) by (unfold lenVarInt; destruct (Z.ltb_spec n 253); [auto|lia]).
  assert (LA : len (u ++ x) = len (cs e) + len a) by (rewrite EA, len_app; lia). rewrite len_app in LA.
  assert (LEE : len e = len a + len y) by (rewrite EE at 1; rewrite len_app; lia).
  pose proof (len_nonneg _ u) as LU. pose proof (len_nonneg _ x) as LX. pose proof (len_nonneg _ a). pose proof (len_nonneg _ y) as LY.
  match goal with |- _ = ?R => set (RES := R) end.
  unfold witness_element, wst. cbn [wi_num wi_eparsed wi_arr wi_len wi_cur wi_elen wi_curLen wi_lenLen wi_parsed]. fold F. rewrite O1.
  replace (1 + len F + len u - 1 - len u) with (len F) by lia. rewrite (u64_id (len F)) by lia.
  (* what the loop over the bytes of the element does *)
  assert (LOOP : forall pre b st0 k0, u ++ x = pre ++ b -> st0 = b ++ w -> k0 = len pre ->
     read_loop_o (len e + len (cs e)) k0 (fun z p c => aset z (len F + p) c) (F ++ pre ++ zeros (length b + length y)) st0 =
       Ok (F ++ (u ++ x) ++ zeros (length y), len u + len x, w)).
  { intros pre b st0 k0 EP -> ->. rewrite app_assoc. rewrite (fill_loop (- len F)).
    2:{ intros. f_equal. lia. }
    2:{ rewrite len_app. lia. }
    2:{ rewrite len_app, len_zeros. rewrite <- len_app, EP, len_app in LA. unfold len in *. lia. }
    rewrite <- len_app, EP, len_app in LA.
    replace (Nat.min _ _) with (length b).
    2:{ rewrite app_length. unfold len in *. destruct YW; subst; cbn [length] in *; lia. }
    rewrite firstn_app_len, skipn_app_len by auto. rewrite skipn_zeros. replace (length b + length y - length b)%nat with (length y) by lia.
    assert (PX : len u + len x = len pre + len b) by (rewrite <- !len_app, EP; reflexivity). rewrite EP, PX, <- !app_assoc. reflexivity. }
  (* the end *)
  assert (FIN : forall (arr : list Z) (epos : Z) (st3 : list Z) (len2 elen : Z), arr = F ++ (u ++ x) ++ zeros (length y) -> epos = len u + len x -> st3 = w ->
     len2 = len F + len e + len (cs e) ->
     (let pos3 := 1 + len F + len u + (epos - len u) in
      if epos =? len e + len (cs e) then
        Ok (mkWitness arr len2 n (len els1 + 1) 0 0 0 1 INCOMPLETE p, pos3, st3, false)
      else Ok (mkWitness arr len2 n (len els1) (len e) epos (len (cs e)) 1 INCOMPLETE p, pos3, st3, false)) =
     RES).
  { intros arr epos st3 len2 elen -> -> -> ->. cbv zeta. unfold RES. unfold wst. destruct y as [|c0 y'].
    - rewrite len_nil in LEE. replace (len u + len x =? len e + len (cs e)) with true by (symmetry; apply Z.eqb_eq; lia).
      cbn [length zeros repeat room]. rewrite !app_nil_r. rewrite flat_map_app. cbn [flat_map]. rewrite app_nil_r. fold F. rewrite W2, app_nil_r, !len_app, len_cons, !len_nil.
      f_equal. f_equal. f_equal. f_equal; [|lia]. f_equal; lia.
    - rewrite len_cons in LEE. pose proof (len_nonneg _ y'). replace (len u + len x =? len e + len (cs e)) with false by (symmetry; apply Z.eqb_neq; lia).
      unfold room. fold F. destruct (Z.ltb_spec (len (u ++ x)) (len (cs e))) as [Q|_]; [rewrite len_app in Q; lia|].
      destruct (u ++ x) as [|c1 u1] eqn:UX; [destruct u; destruct x; cbn in UX; congruence|]. rewrite <- UX.
      rewrite !len_app, len_zeros. f_equal. f_equal. f_equal. f_equal; [|lia]. f_equal; try lia. unfold len in *. cbn [length] in *. lia. }
  clearbody RES.
  assert (P4 : (u = [] \/ part_len_ok e u) \/ (exists a0, u = cs e ++ a0 /\ e = a0 ++ v)) by tauto. clear P1. destruct P4 as [P1|(a0 & EU & EE0)].
  - (* a new element *)
    assert (SU : len u < len (cs e)).
    { destruct P1 as [->|(_ & (b & NB & EB) & _)]; [rewrite len_nil; lia|]. rewrite EB, len_app. destruct b; [congruence|]. rewrite len_cons. pose proof (len_nonneg _ b). lia. }
    assert (RM : room e u v = []) by (unfold room; destruct u; [reflexivity|]; destruct (Z.ltb_spec (len (z :: u)) (len (cs e))); [reflexivity|lia]).
    rewrite RM, app_nil_r.
    destruct (read_full e u (x ++ w) (a ++ w) (match u with [] => 0 | _ => if len u <? len (cs e) then len e mod 2^(8 * (len u - 1)) else len e end) (match u with [] => 0 | _ => len (cs e) end)) as (el & ep & st1 & HM & HR); auto; [lia|destruct x; [congruence|discriminate]|rewrite !app_assoc, EA; reflexivity| |].
    { intros NU. destruct u; [congruence|]. destruct (Z.ltb_spec (len (z :: u)) (len (cs e))); [auto|lia]. }
    rewrite HM, HR. cbn [bind]. rewrite Z.eqb_refl, lenVarInt_spec, Z.eqb_refl by lia. cbn [negb andb].
    destruct (Z.ltb_spec 0 (len (cs e) - len u)); [|lia]. cbn [andb].
    unfold alloc_ok. destruct (Z.ltb_spec (len F + len e + len (cs e)) (2^31)); [|lia]. cbn [negb].
    assert (AR : (if len F =? 0 then varint_at (zeros (Z.to_nat (len F + len e + len (cs e)))) 0 (len e)
       else varint_at (F ++ zeros (Z.to_nat (len e + len (cs e)))) (len F) (len e)) = Ok (F ++ cs e ++ zeros (length e))).
    { assert (Z : zeros (Z.to_nat (len e + len (cs e))) = zeros (length (cs e)) ++ zeros (length e)).
      { unfold zeros. rewrite <- repeat_app. f_equal. unfold len. lia. }
      destruct (Z.eqb_spec (len F) 0) as [Z0|Z0].
      - assert (A0 : F = []) by (apply length_zero_iff_nil; unfold len in Z0; lia).
        rewrite A0. change (len []) with 0. cbn [Z.add app]. rewrite Z.
        apply (varint_at_app [] (zeros (length (cs e))) (zeros (length e)) (len e)); [lia|]. unfold zeros. rewrite repeat_length. auto.
      - rewrite Z. apply varint_at_app; [lia|]. unfold zeros. rewrite repeat_length. auto. }
    rewrite AR. cbn [bind]. clear AR. rewrite (u64_id (len e + len (cs e))) by lia.
    replace (length e) with (length a + length y)%nat by (rewrite EE; rewrite app_length; reflexivity).
    rewrite (LOOP (cs e) a) by auto. cbn [bind].
    apply (FIN _ _ _ _ 0); auto.
  - (* further bytes of it *)
    assert (NU : u <> []) by (intros ->; destruct (cs e); [cbn in CP; lia|discriminate]).
    assert (LU1 : 1 <= len u) by (destruct u; [congruence|rewrite len_cons; pose proof (len_nonneg _ u); lia]).
    assert (LCU : len (cs e) <= len u) by (rewrite EU, len_app; pose proof (len_nonneg _ a0); lia).
    assert (RM : room e u v = u ++ zeros (length x + length y)) by (unfold room; destruct u; [congruence|]; destruct (Z.ltb_spec (len (z :: u)) (len (cs e))); [lia|]; rewrite EV, app_length; reflexivity).
    rewrite RM. destruct x as [|c x]; [congruence|]. cbn [app]. replace (len u =? 0) with false by (symmetry; apply Z.eqb_neq; lia).
    replace (match u with [] => 0 | _ :: _ => if len u <? len (cs e) then len e mod 2^(8 * (len u - 1)) else len e end) with (len e) by (destruct u; [congruence|]; destruct (Z.ltb_spec (len (z :: u)) (len (cs e))); [lia|reflexivity]).
    replace (match u with [] => 0 | _ :: _ => len (cs e) end) with (len (cs e)) by (destruct u; congruence).
    cbv iota. rewrite read_loop_o_stop by lia. cbn [bind]. rewrite lenVarInt_spec, Z.eqb_refl by lia. cbn [negb andb].
    rewrite Z.sub_diag. change (0 <? 0) with false. rewrite andb_false_r. cbn [andb bind].
    rewrite (u64_id (len e + len (cs e))) by lia.
    change (c :: x ++ w) with ((c :: x) ++ w).
    rewrite (LOOP u (c :: x)) by auto. cbn [bind].
    apply (FIN _ _ _ _ 0); auto. rewrite !len_app, len_zeros. unfold len in *. lia.
Qed.

Lemma element_part : forall n els1 e u v x y w p, 0 <= n < 253 -> part_ok e u v -> v = x ++ y -> part_ok e (u ++ x) y -> x <> [] -> bytes_ok e ->
  len (flat_map wire_bytes els1) + len (wire_bytes e) < 2^31 -> y = [] \/ w = [] ->
  witness_element (wst n els1 e u v p) (1 + len (flat_map wire_bytes els1) + len u) (x ++ w) =
    Ok (match y with [] => wst n (els1 ++ [e]) [] [] [] p | _ => wst n els1 e (u ++ x) y p end, 1 + len (flat_map wire_bytes els1) + len u + len x, w, false).
Proof.
  intros n els1 e u v x y w p N P1 EV P2 NX BE SZ YW. pose proof P2 as [W2 [Q|[Q|Q]]].
  - destruct u; cbn in Q; [congruence|discriminate].
  - apply (element_full n els1 e u v x y w p); auto.
  - assert (SH : len (u ++ x) < len (cs e)).
    { destruct Q as (_ & (b & NB & EB) & _). rewrite EB, !len_app. destruct b; [congruence|]. rewrite len_cons. pose proof (len_nonneg _ b). lia. }
    assert (NY : y <> []) by (intros ->; rewrite app_nil_r in W2; rewrite <- W2, len_wire_bytes in SH; pose proof (len_nonneg _ e); lia).
    destruct YW as [->| ->]; [congruence|]. rewrite app_nil_r.
    assert (P0 : u = [] \/ part_len_ok e u).
    { destruct P1 as [_ [P1|[(a0 & P1 & _)|P1]]]; auto. rewrite P1, !len_app in SH. pose proof (len_nonneg _ a0). pose proof (len_nonneg _ x). lia. }
    destruct y as [|y0 y']; [congruence|]. apply element_short; auto.
Qed.

Lemma left_part : forall {A} (a b c d : list A), a ++ b = c ++ d -> (length a <= length c)%nat -> exists q, c = a ++ q /\ b = q ++ d.
Proof.
  intros A. induction a as [|x a IH]; intros b c d E L; [exists c; auto|]. destruct c as [|y c]; cbn in L; [lia|].
  cbn in E. assert (x = y) by congruence. assert (a ++ b = c ++ d) by congruence. subst y. destruct (IH b c d) as (q & E1 & E2); auto; [lia|]. exists q. subst. auto.
Qed.
Lemma both_parts : forall (t2 rest c d : list Z), t2 ++ rest = c ++ d -> exists u v w, t2 = u ++ v /\ c = u ++ w /\ (v = [] \/ w = []).
Proof.
  intros t2 rest c d E. destruct (Nat.le_ge_cases (length t2) (length c)) as [L|L].
  - destruct (left_part _ _ _ _ E L) as (q & -> & _). exists t2, [], q. rewrite app_nil_r. auto.
  - symmetry in E. destruct (left_part _ _ _ _ E L) as (q & -> & _). exists c, q, []. rewrite app_nil_r. auto.
Qed.
Lemma flat_len_cons : forall els1 (e : list Z) els2, len (flat_map wire_bytes (els1 ++ e :: els2)) = len (flat_map wire_bytes els1) + len (wire_bytes e) + len (flat_map wire_bytes els2).
Proof. intros. rewrite flat_map_app, len_app. cbn [flat_map]. rewrite len_app. lia. Qed.

Lemma one_step : forall els2 n els1 e u v st more rest fuel p, 0 <= n < 253 -> n = len els1 + 1 + len els2 ->
  part_ok e u v -> v <> [] -> Forall bytes_ok (e :: els2) -> len (flat_map wire_bytes (els1 ++ e :: els2)) < 2^31 ->
  (v ++ flat_map wire_bytes els2) ++ rest = st ++ more ->
  ~ unlucky_at (els1 ++ e :: els2) (1 + len (flat_map wire_bytes els1) + len u + len st) -> st <> [] ->
  exists x y w, v = x ++ y /\ st = x ++ w /\ (y = [] \/ w = []) /\ x <> [] /\ part_ok e (u ++ x) y /\
    witness_elements (S fuel) (wst n els1 e u v p) (1 + len (flat_map wire_bytes els1) + len u) st =
    witness_elements fuel (match y with [] => wst n (els1 ++ [e]) [] [] [] p | _ => wst n els1 e (u ++ x) y p end)
      (1 + len (flat_map wire_bytes els1) + len u + len x) w.
Proof.
  intros els2 n els1 e u v st more rest fuel p N NN P V B SZ E C NS.
  rewrite <- app_assoc in E; destruct (both_parts _ _ _ _ E) as (x & y & w & EV & ES & YW).
  assert (NX : x <> []).
  { intros ->. cbn [app] in *. destruct YW; congruence. }
  pose proof (Forall_inv B) as BE. pose proof (len_nonneg _ els1). pose proof (len_nonneg _ els2).
  rewrite flat_len_cons in SZ. pose proof (len_nonneg _ (flat_map wire_bytes els2)).
  pose proof P as [PW PA]. pose proof (len_nonneg _ u) as LU.
  assert (LX : 1 <= len x) by (destruct x; [congruence|rewrite len_cons; pose proof (len_nonneg _ x); lia]).
  assert (P2 : part_ok e (u ++ x) y).
  { split; [rewrite <- app_assoc, <- EV; exact PW|]. right.
    destruct (Z.lt_ge_cases (len (u ++ x)) (len (cs e))) as [Q|Q].
    - right. assert (EW : (u ++ x) ++ y = cs e ++ e) by (rewrite <- app_assoc, <- EV, <- PW; reflexivity).
      destruct (left_part _ _ _ _ EW ltac:(apply Nat2Z.inj_le; apply Z.lt_le_incl; exact Q)) as (b & EB & _).
      split; [destruct u; [exact NX|discriminate]|]. split; [exists b; split; [|exact EB]; intros ->; rewrite app_nil_r in EB; rewrite EB in Q; lia|].
      intros UL. destruct YW as [->| ->].
      + rewrite app_nil_r in EW. rewrite EW, len_app in Q. pose proof (len_nonneg _ e). lia.
      + apply C. exists els1, e, els2. split; [reflexivity|]. cbv zeta.
        rewrite ES, app_nil_r, compact_one by (rewrite len_app, len_cons; lia).
        change (len [_]) with 1. replace (1 + len (flat_map wire_bytes els1) + len u + len x - 1 - len (flat_map wire_bytes els1)) with (len (u ++ x)) by (rewrite len_app; lia).
        split; [rewrite len_app in *; lia|exact UL].
    - left. apply (left_part (cs e) e (u ++ x) y); [rewrite <- app_assoc, <- EV; exact PW|apply Nat2Z.inj_le; exact Q]. }
  exists x, y, w. repeat (split; [assumption|]).
  destruct st as [|c0 st0]; [congruence|]. cbn [witness_elements wi_cur wi_num wst].
  destruct (Z.ltb_spec (len els1) n) as [_|Q]; [|lia]. rewrite ES.
  change (mkWitness _ _ n _ _ _ _ 1 INCOMPLETE p) with (wst n els1 e u v p).
  rewrite (element_part n els1 e u v x y w p) by (auto; lia). reflexivity.
Qed.
Lemma elements_part : forall els2 n els1 e u v st more rest fuel p, 0 <= n < 253 -> n = len els1 + 1 + len els2 ->
  part_ok e u v -> v <> [] -> Forall bytes_ok (e :: els2) -> len (flat_map wire_bytes (els1 ++ e :: els2)) < 2^31 ->
  (v ++ flat_map wire_bytes els2) ++ rest = st ++ more ->
  ~ unlucky_at (els1 ++ e :: els2) (1 + len (flat_map wire_bytes els1) + len u + len st) -> (length st < fuel)%nat ->
  (exists w, st = v ++ flat_map wire_bytes els2 ++ w /\
     witness_elements fuel (wst n els1 e u v p) (1 + len (flat_map wire_bytes els1) + len u) st =
       Ok (wst n (els1 ++ e :: els2) [] [] [] p, 1 + len (flat_map wire_bytes (els1 ++ e :: els2)), w, false)) \/
  (exists els1' e' u' v' els2', els1 ++ e :: els2 = els1' ++ e' :: els2' /\ part_ok e' u' v' /\ v' <> [] /\
     len (flat_map wire_bytes els1) + len u + len st = len (flat_map wire_bytes els1') + len u' /\
     v ++ flat_map wire_bytes els2 = st ++ v' ++ flat_map wire_bytes els2' /\
     witness_elements fuel (wst n els1 e u v p) (1 + len (flat_map wire_bytes els1) + len u) st =
       Ok (wst n els1' e' u' v' p, 1 + len (flat_map wire_bytes els1') + len u', [], false)).
Proof.
  assert (STOP : forall els2 n els1 e u v fuel p, part_ok e u v -> v <> [] -> exists els1' e' u' v' els2', els1 ++ e :: els2 = els1' ++ e' :: els2' /\ part_ok e' u' v' /\ v' <> [] /\
     len (flat_map wire_bytes els1) + len u + len (@nil Z) = len (flat_map wire_bytes els1') + len u' /\
     v ++ flat_map wire_bytes els2 = [] ++ v' ++ flat_map wire_bytes els2' /\
     witness_elements fuel (wst n els1 e u v p) (1 + len (flat_map wire_bytes els1) + len u) [] =
       Ok (wst n els1' e' u' v' p, 1 + len (flat_map wire_bytes els1') + len u', [], false)).
  { intros els2 n els1 e u v fuel p P V. exists els1, e, u, v, els2. rewrite len_nil. repeat (split; [auto; lia|]). destruct fuel; reflexivity. }
  induction els2 as [|e2 els2 IH]; intros n els1 e u v st more rest fuel p N NN P V B SZ E C FU.
  - destruct (list_eq_dec Z.eq_dec st []) as [->|NS]; [right; apply STOP; auto|].
    destruct fuel as [|fuel]; [lia|].
    destruct (one_step [] n els1 e u v st more rest fuel p N NN P V B SZ E C NS) as (x & y & w & EV & ES & YW & NX & P2 & ->).
    destruct y as [|y0 y].
    + left. exists w. rewrite app_nil_r in EV. subst x. split; [exact ES|].
      assert (PF : 1 + len (flat_map wire_bytes els1) + len u + len v = 1 + len (flat_map wire_bytes (els1 ++ [e]))).
      { rewrite flat_len_cons. destruct P as [-> _]. cbn [flat_map]. rewrite len_app, len_nil. lia. }
      rewrite PF. rewrite len_nil in NN. destruct fuel, w; cbn [witness_elements wi_cur wi_num wst]; try reflexivity; (destruct (Z.ltb_spec (len (els1 ++ [e])) n) as [Q|Q]; [rewrite len_app, len_cons, len_nil in Q; lia|reflexivity]).
    + destruct YW as [Q| ->]; [discriminate|]. rewrite app_nil_r in ES. subst x.
      right. exists els1, e, (u ++ st), (y0 :: y), []. split; [reflexivity|]. split; [exact P2|]. split; [discriminate|].
      split; [rewrite len_app; lia|]. split; [cbn [flat_map]; rewrite !app_nil_r; exact EV|]. rewrite len_app. replace (1 + len (flat_map wire_bytes els1) + (len u + len st)) with (1 + len (flat_map wire_bytes els1) + len u + len st) by lia. destruct fuel; reflexivity.
  - destruct (list_eq_dec Z.eq_dec st []) as [->|NS]; [right; apply STOP; auto|].
    destruct fuel as [|fuel]; [lia|].
    destruct (one_step (e2 :: els2) n els1 e u v st more rest fuel p N NN P V B SZ E C NS) as (x & y & w & EV & ES & YW & NX & P2 & ->).
    destruct y as [|y0 y].
    + rewrite app_nil_r in EV. subst x. destruct P as [PW PA].
      assert (PF : 1 + len (flat_map wire_bytes els1) + len u + len v = 1 + len (flat_map wire_bytes (els1 ++ [e])) + len (@nil Z)).
      { rewrite flat_len_cons, PW. cbn [flat_map]. rewrite len_app, len_nil. lia. }
      rewrite PF. change (wst n (els1 ++ [e]) [] [] [] p) with (wst n (els1 ++ [e]) e2 [] (wire_bytes e2) p).
      assert (AA : els1 ++ e :: e2 :: els2 = (els1 ++ [e]) ++ e2 :: els2) by (rewrite <- app_assoc; reflexivity).
      assert (LW : length st = (length v + length w)%nat) by (rewrite ES; apply app_length).
      assert (LV : (1 <= length v)%nat) by (destruct v; [congruence|cbn; lia]).
      destruct (IH n (els1 ++ [e]) e2 [] (wire_bytes e2) w more rest fuel p) as [(w' & E1 & E2)|(els1' & e' & u' & v' & els2' & E1 & E2 & E3 & E4 & E5 & E6)].
      * exact N.
      * rewrite len_app, len_cons, len_nil. rewrite len_cons in NN. lia.
      * split; [reflexivity|]. left. reflexivity.
      * unfold wire_bytes. intros Q. apply app_eq_nil in Q. destruct Q as [Q _]. pose proof (cs_pos (len e2)) as X. rewrite Q in X. rewrite flat_len_cons in SZ. cbn [flat_map] in SZ. rewrite len_app, (len_wire_bytes e2) in SZ.
        pose proof (len_nonneg _ e2). pose proof (len_nonneg _ (cs e2)). pose proof (len_nonneg _ (flat_map wire_bytes els1)). pose proof (len_nonneg _ (wire_bytes e)). pose proof (len_nonneg _ (flat_map wire_bytes els2)).
        specialize (X ltac:(lia)). rewrite len_nil in X. lia.
      * apply (Forall_inv_tail B).
      * rewrite <- AA. exact SZ.
      * rewrite ES in E. cbn [flat_map] in E. rewrite <- !app_assoc in E. apply app_inv_head in E. rewrite <- app_assoc. exact E.
      * rewrite <- AA. intros Q. apply C. rewrite ES, len_app. rewrite <- PF in Q. replace (1 + len (flat_map wire_bytes els1) + len u + (len v + len w)) with (1 + len (flat_map wire_bytes els1) + len u + len v + len w) by lia. exact Q.
      * lia.
      * left. exists w'. split; [rewrite ES, E1; cbn [flat_map]; rewrite <- !app_assoc; reflexivity|]. rewrite AA. exact E2.
      * right. exists els1', e', u', v', els2'. rewrite AA. split; [exact E1|]. split; [exact E2|]. split; [exact E3|].
        split; [rewrite ES, len_app; lia|]. split; [|exact E6]. rewrite ES, <- app_assoc. f_equal. exact E5.
    + destruct YW as [Q| ->]; [discriminate|]. rewrite app_nil_r in ES. subst x.
      right. exists els1, e, (u ++ st), (y0 :: y), (e2 :: els2). split; [reflexivity|]. split; [exact P2|]. split; [discriminate|].
      split; [rewrite len_app; lia|]. split; [rewrite EV, <- app_assoc; reflexivity|]. rewrite len_app. replace (1 + len (flat_map wire_bytes els1) + (len u + len st)) with (1 + len (flat_map wire_bytes els1) + len u + len st) by lia. destruct fuel; reflexivity.
Qed.

(** ** Whole calls *)
Lemma num_one : forall n, 0 <= n < 253 -> lenVarInt n = 1.
Proof. intros n H. unfold lenVarInt. destruct (Z.ltb_spec n 253); [auto|lia]. Qed.
Definition pos (els1 : list (list Z)) (u : list Z) : Z := 1 + len (flat_map wire_bytes els1) + len u.
Definition now (els1 : list (list Z)) (e u v : list Z) (els2 : list (list Z)) : witness := wst (len (els1 ++ e :: els2)) els1 e u v (pos els1 u).
Lemma parsed_wst : forall els p, mkWitness (wi_arr (wst (len els) els [] [] [] p)) (wi_len (wst (len els) els [] [] [] p)) (len els) (len els) 0 0 0 1 DONE (1 + len (flat_map wire_bytes els)) = parsed_witness els \/ 253 <= len els.
Proof.
  intros els p. destruct (Z.lt_ge_cases (len els) 253) as [Q|Q]; auto. left. pose proof (len_nonneg _ els).
  unfold parsed_witness, wst, room, wire_witness. cbn [wi_arr wi_len]. rewrite app_nil_r, compact_one, len_app by lia. change (len [_]) with 1. reflexivity.
Qed.
Lemma next_call : forall els1 e u v els2 st more rest, len (els1 ++ e :: els2) < 253 ->
  part_ok e u v -> v <> [] -> Forall bytes_ok (e :: els2) -> len (flat_map wire_bytes (els1 ++ e :: els2)) < 2^31 ->
  (v ++ flat_map wire_bytes els2) ++ rest = st ++ more ->
  ~ unlucky_at (els1 ++ e :: els2) (pos els1 u + len st) ->
  (exists w, st = v ++ flat_map wire_bytes els2 ++ w /\
     witness_parse (now els1 e u v els2) st = Ok (parsed_witness (els1 ++ e :: els2), len v + len (flat_map wire_bytes els2), w)) \/
  (exists els1' e' u' v' els2', els1 ++ e :: els2 = els1' ++ e' :: els2' /\ part_ok e' u' v' /\ v' <> [] /\
     pos els1 u + len st = pos els1' u' /\
     v ++ flat_map wire_bytes els2 = st ++ v' ++ flat_map wire_bytes els2' /\
     witness_parse (now els1 e u v els2) st = Ok (now els1' e' u' v' els2', len st, [])).
Proof.
  intros els1 e u v els2 st more rest N P V B SZ E C. set (n := len (els1 ++ e :: els2)) in *.
  assert (NN : n = len els1 + 1 + len els2) by (unfold n; rewrite len_app, len_cons; lia).
  pose proof (len_nonneg _ els1). pose proof (len_nonneg _ els2). pose proof (len_nonneg _ u). pose proof (len_nonneg _ (flat_map wire_bytes els1)).
  assert (BODY : witness_parse (now els1 e u v els2) st =
    let! r := witness_elements (S (length st)) (wst n els1 e u v (pos els1 u)) (pos els1 u) st in
    let '(w2, pos2, st2, stop) := r in
    if stop then Ok (w2, pos2 - pos els1 u, st2)
    else Ok (mkWitness (wi_arr w2) (wi_len w2) (wi_num w2) (wi_cur w2) (wi_elen w2) (wi_eparsed w2) (wi_curLen w2) (wi_lenLen w2)
       (if wi_cur w2 =? wi_num w2 then DONE else INCOMPLETE) pos2, pos2 - pos els1 u, st2)).
  { unfold witness_parse. unfold now at 1. cbn [wi_status wst]. fold (now els1 e u v els2). unfold witness_parse_body.
    assert (X : wi_parsed (now els1 e u v els2) =? 0 = false) by (apply Z.eqb_neq; unfold now, wst, pos; cbn [wi_parsed]; lia).
    rewrite X. clear X. unfold now. fold n. cbn [wi_parsed wi_arr wi_len wi_num wi_cur wi_elen wi_eparsed wi_curLen wi_lenLen wst].
    destruct st as [|b st]; cbn [wi_parsed wi_arr wi_len wi_num wi_cur wi_elen wi_eparsed wi_curLen wi_lenLen]; rewrite num_one by lia; change (negb (1 =? 1)) with false; rewrite andb_false_r; reflexivity. }
  rewrite BODY. clear BODY. unfold pos in C |- *.
  destruct (elements_part els2 n els1 e u v st more rest (S (length st)) (1 + len (flat_map wire_bytes els1) + len u)) as [(w & E1 & ->)|(els1' & e' & u' & v' & els2' & E1 & E2 & E3 & E4 & E5 & ->)]; auto; try lia.
  - left. exists w. split; [exact E1|]. cbn [bind wi_num wi_cur wi_elen wi_eparsed wi_curLen wi_lenLen wst]. fold n. rewrite Z.eqb_refl.
    assert (LB : 1 + len (flat_map wire_bytes (els1 ++ e :: els2)) - (1 + len (flat_map wire_bytes els1) + len u) = len v + len (flat_map wire_bytes els2)).
    { rewrite flat_len_cons. destruct P as [-> _]. rewrite len_app. lia. }
    rewrite LB. destruct (parsed_wst (els1 ++ e :: els2) (1 + len (flat_map wire_bytes els1) + len u)) as [<-|Q]; [|fold n in Q; lia]. unfold n. change (len (@nil Z)) with 0. reflexivity.
  - right. exists els1', e', u', v', els2'. split; [exact E1|]. split; [exact E2|]. split; [exact E3|]. split; [lia|]. split; [exact E5|].
    assert (N2 : n = len els1' + 1 + len els2') by (unfold n; rewrite E1, len_app, len_cons; lia). pose proof (len_nonneg _ els2').
    cbn [bind wi_num wi_cur wi_elen wi_eparsed wi_curLen wi_lenLen wst]. replace (len els1' =? n) with false by (symmetry; apply Z.eqb_neq; lia).
    unfold now, pos. rewrite <- E1. fold n. cbn [wi_arr wi_len wst]. do 3 f_equal. lia.
Qed.
Lemma part_len : forall els1 e u v els2, part_ok e u v -> pos els1 u + len v + len (flat_map wire_bytes els2) = 1 + len (flat_map wire_bytes (els1 ++ e :: els2)).
Proof. intros els1 e u v els2 [E _]. rewrite flat_len_cons, E, len_app. unfold pos. lia. Qed.
(** The pieces after the first. *)
Lemma feed_next : forall chunks els1 e u v els2 rest, len (els1 ++ e :: els2) < 253 ->
  part_ok e u v -> v <> [] -> Forall bytes_ok (els1 ++ e :: els2) -> len (flat_map wire_bytes (els1 ++ e :: els2)) < 2^31 ->
  concat chunks = (v ++ flat_map wire_bytes els2) ++ rest ->
  (forall a b, chunks = a ++ b -> b <> [] -> ~ unlucky_at (els1 ++ e :: els2) (pos els1 u + len (concat a))) ->
  feed witness_parse wi_status (now els1 e u v els2) chunks = Ok (parsed_witness (els1 ++ e :: els2), len v + len (flat_map wire_bytes els2), rest).
Proof.
  induction chunks as [|c chunks IH]; intros els1 e u v els2 rest N P V B SZ E C.
  - cbn in E. destruct v; [congruence|discriminate].
  - cbn [concat] in E. assert (BT : Forall bytes_ok (e :: els2)) by (apply Forall_app in B; apply B).
    assert (C1 : ~ unlucky_at (els1 ++ e :: els2) (pos els1 u + len c)).
    { destruct chunks as [|c2 chunks].
      - cbn [concat] in E. rewrite app_nil_r in E. pose proof (len_nonneg _ rest). pose proof (part_len els1 e u v els2 P) as PL.
        assert (LC : len c = len v + len (flat_map wire_bytes els2) + len rest) by (rewrite E, !len_app; lia).
        intros (l1 & e1 & l2 & EQ & Q & _). rewrite compact_one in Q by (pose proof (len_nonneg _ (els1 ++ e :: els2)); lia). change (len [_]) with 1 in Q.
        rewrite EQ, flat_len_cons, len_wire_bytes in PL. pose proof (len_nonneg _ e1). pose proof (len_nonneg _ (flat_map wire_bytes l2)). lia.
      - specialize (C [c] (c2 :: chunks) eq_refl ltac:(discriminate)). cbn [concat] in C. rewrite app_nil_r in C. exact C. }
    cbn [feed]. destruct (next_call els1 e u v els2 c (concat chunks) rest N P V BT SZ (eq_sym E) C1) as [(w & E1 & ->)|(els1' & e' & u' & v' & els2' & E1 & E2 & E3 & E4 & E5 & ->)].
    + cbn [bind wi_status parsed_witness]. rewrite E1, <- !app_assoc in E. do 2 apply app_inv_head in E. rewrite E. reflexivity.
    + cbn [bind wi_status now wst]. change (mkWitness _ _ _ _ _ _ _ _ INCOMPLETE _) with (now els1' e' u' v' els2').
      rewrite (IH els1' e' u' v' els2' rest); auto; try (rewrite <- E1; auto).
      * cbn [bind app]. rewrite E1. f_equal. f_equal. f_equal.
        assert (X : len (v ++ flat_map wire_bytes els2) = len (c ++ v' ++ flat_map wire_bytes els2')) by (rewrite E5; reflexivity). rewrite !len_app in X. lia.
      * rewrite E5, <- !app_assoc in E. apply app_inv_head in E. rewrite <- app_assoc. exact E.
      * intros a b EC NB. rewrite <- E4. specialize (C (c :: a) b ltac:(rewrite EC; reflexivity) NB). cbn [concat] in C. rewrite len_app in C. replace (pos els1 u + len c + len (concat a)) with (pos els1 u + (len c + len (concat a))) by lia. exact C.
Qed.
Lemma first_call : forall w b st, wi_status w = DONE -> wi_len w = len (wi_arr w) -> 0 <= b < 253 ->
  witness_parse w (b :: st) =
    let! r := witness_elements (S (length st)) (mkWitness [] 0 b 0 0 0 0 1 INCOMPLETE 0) 1 st in
    let '(w2, pos2, st2, stop) := r in
    if stop then Ok (w2, pos2, st2)
    else Ok (mkWitness (wi_arr w2) (wi_len w2) (wi_num w2) (wi_cur w2) (wi_elen w2) (wi_eparsed w2) (wi_curLen w2) (wi_lenLen w2)
       (if wi_cur w2 =? wi_num w2 then DONE else INCOMPLETE) pos2, pos2, st2).
Proof.
  intros w b st D WL N. unfold witness_parse. rewrite D. set (w0 := witness_clear _).
  assert (W0 : w0 = mkWitness [] 0 0 0 0 0 0 0 DONE 0).
  { unfold w0, witness_clear. cbn. destruct (Z.ltb_spec 0 (wi_len w)); auto. f_equal.
    destruct (wi_arr w); auto. rewrite len_cons in *. pose proof (len_nonneg _ l). lia. }
  rewrite W0. unfold witness_parse_body. cbn [wi_parsed wi_arr wi_len wi_num wi_cur wi_elen wi_eparsed wi_curLen wi_lenLen]. change (0 =? 0) with true. cbv iota.
  destruct (Z.ltb_spec b 253); [|lia]. cbn [wi_parsed wi_arr wi_len wi_num wi_cur wi_elen wi_eparsed wi_curLen wi_lenLen]. rewrite num_one by lia. cbn [Z.eqb negb andb Pos.eqb].
  destruct (witness_elements _ _ _ _) as [[[[w2 p2] s2] [|]]|]; cbn [bind]; rewrite ?Z.sub_0_r; reflexivity.
Qed.
Lemma witness_pieces : forall w els rest c chunks, wi_status w = DONE -> wi_len w = len (wi_arr w) -> len els < 253 -> Forall bytes_ok els ->
  len (flat_map wire_bytes els) < 2^31 -> c <> [] -> concat (c :: chunks) = wire_witness els ++ rest ->
  (forall a b, c :: chunks = a ++ b -> b <> [] -> ~ unlucky_at els (len (concat a))) ->
  feed witness_parse wi_status w (c :: chunks) = Ok (parsed_witness els, len (wire_witness els), rest).
Proof.
  intros w els rest c chunks D WL N B SZ NC E C. pose proof (len_nonneg _ els) as N0. destruct c as [|b c]; [congruence|].
  unfold wire_witness in E. rewrite compact_one in E by lia. cbn [concat app] in E. assert (EB : b = len els) by congruence. assert (EC : c ++ concat chunks = flat_map wire_bytes els ++ rest) by congruence. clear E. subst b.
  cbn [feed]. rewrite first_call by (auto; lia).
  assert (LW : len (wire_witness els) = 1 + len (flat_map wire_bytes els)) by (unfold wire_witness; rewrite compact_one, len_app by lia; reflexivity).
  destruct els as [|e els].
  - replace (witness_elements _ _ _ c) with (Ok (mkWitness [] 0 (len (@nil (list Z))) 0 0 0 0 1 INCOMPLETE 0, 1, c, false)) by (destruct c; reflexivity).
    cbn [bind wi_parsed wi_arr wi_len wi_num wi_cur wi_elen wi_eparsed wi_curLen wi_lenLen wi_status]. change (0 =? len (@nil (list Z))) with true. cbv iota. cbn [flat_map app] in EC. rewrite EC, LW. cbn [flat_map]. reflexivity.
  - assert (V : wire_bytes e <> []).
    { unfold wire_bytes. intros Q. apply app_eq_nil in Q. destruct Q as [Q _]. cbn [flat_map] in SZ. rewrite len_app, len_wire_bytes in SZ. pose proof (len_nonneg _ e). pose proof (len_nonneg _ (cs e)). pose proof (len_nonneg _ (flat_map wire_bytes els)).
      pose proof (cs_pos (len e) ltac:(lia)) as X. rewrite Q, len_nil in X. lia. }
    set (n := len (e :: els)) in *.
    assert (C1 : ~ unlucky_at (e :: els) (1 + len (flat_map wire_bytes []) + len (@nil Z) + len c)).
    { cbn [flat_map]. rewrite !len_nil. destruct chunks as [|c2 chunks].
      - cbn [concat] in EC. rewrite app_nil_r in EC. intros (l1 & e1 & l2 & EQ & Q & _). rewrite compact_one in Q by (fold n; lia). change (len [_]) with 1 in Q.
        assert (LC : len c = len (flat_map wire_bytes (e :: els)) + len rest) by (rewrite EC, len_app; lia). pose proof (len_nonneg _ rest).
        rewrite EQ, flat_len_cons, len_wire_bytes in LC. pose proof (len_nonneg _ e1). pose proof (len_nonneg _ (flat_map wire_bytes l2)). lia.
      - specialize (C [n :: c] (c2 :: chunks) eq_refl ltac:(discriminate)). cbn [concat] in C. rewrite app_nil_r, len_cons in C. replace (1 + 0 + 0 + len c) with (1 + len c) by lia. exact C. }
    change (mkWitness [] 0 n 0 0 0 0 1 INCOMPLETE 0) with (wst n [] e [] (wire_bytes e) 0).
    change 1 with (1 + len (flat_map wire_bytes []) + len (@nil Z)) at 1.
    destruct (elements_part els n [] e [] (wire_bytes e) c (concat chunks) rest (S (length c)) 0) as [(q & E1 & ->)|(els1' & e' & u' & v' & els2' & E1 & E2 & E3 & E4 & E5 & ->)]; auto; try lia.
    + unfold n. rewrite len_cons, len_nil. lia.
    + split; [reflexivity|left; reflexivity].
    + cbn [bind wi_num wi_cur wi_elen wi_eparsed wi_curLen wi_lenLen wi_status wst app]. fold n. rewrite Z.eqb_refl. cbv iota.
      rewrite E1, <- !app_assoc in EC. cbn [flat_map] in EC. rewrite <- app_assoc in EC. do 2 apply app_inv_head in EC. rewrite LW, EC.
      destruct (parsed_wst (e :: els) 0) as [<-|Q]; [|fold n in Q; lia]. reflexivity.
    + cbn [app] in E1. assert (N2 : n = len els1' + 1 + len els2') by (unfold n; rewrite E1, len_app, len_cons; lia). pose proof (len_nonneg _ els2').
      cbn [bind wi_num wi_cur wi_elen wi_eparsed wi_curLen wi_lenLen wi_status wst]. replace (len els1' =? n) with false by (symmetry; apply Z.eqb_neq; lia). cbv iota.
      match goal with |- context [feed witness_parse wi_status ?s chunks] => change s with (wst n els1' e' u' v' (pos els1' u')) end. unfold n at 1. rewrite E1. fold (now els1' e' u' v' els2').
      rewrite (feed_next chunks els1' e' u' v' els2' rest); auto; try (rewrite <- E1; auto).
      * cbn [bind app]. rewrite LW. f_equal. f_equal. f_equal. pose proof (part_len els1' e' u' v' els2' E2) as PL. rewrite <- E1 in PL. unfold pos in PL. lia.
      * cbn [flat_map] in EC. rewrite E5, <- !app_assoc in EC. apply app_inv_head in EC. rewrite <- app_assoc. exact EC.
      * intros a b EA NB. specialize (C ((n :: c) :: a) b ltac:(rewrite EA; reflexivity) NB). cbn [concat app] in C. rewrite len_cons, len_app in C.
        replace (pos els1' u' + len (concat a)) with (1 + (len c + len (concat a))); [exact C|]. unfold pos. cbn [flat_map] in E4. rewrite !len_nil in E4. lia.
Qed.
Lemma witness_pieces_same : forall w els rest c chunks, wi_status w = DONE -> wi_len w = len (wi_arr w) -> len els < 253 -> Forall bytes_ok els ->
  len (flat_map wire_bytes els) < 2^31 -> c <> [] -> concat (c :: chunks) = wire_witness els ++ rest ->
  (forall a b, c :: chunks = a ++ b -> b <> [] -> ~ unlucky_at els (len (concat a))) ->
  exists w', feed witness_parse wi_status w (c :: chunks) = Ok (w', len (wire_witness els), rest) /\
    witness_parse w (wire_witness els ++ rest) = Ok (w', len (wire_witness els), rest) /\
    wi_status w' = DONE /\ wi_num w' = len els /\ wi_arr w' = flat_map wire_bytes els.
Proof.
  intros w els rest c chunks D WL N B SZ NC E C. exists (parsed_witness els). split; [apply witness_pieces; auto|]. split; [apply witness_parse_wire; auto|]. auto.
Qed.
