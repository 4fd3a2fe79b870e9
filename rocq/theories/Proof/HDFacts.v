(** Extended private keys on streams. *)
From Coq Require Import Lia.
From Verif Require Import Base.Bytes Base.BytesFacts Model.Conversion Model.Stream Model.Networks Model.Keys Model.HD
  Spec.Codecs Spec.StreamOps Spec.Wire Spec.Objects Spec.Keys Spec.HD
  Proof.BaseN Proof.Base58 Proof.StreamFacts Proof.Chunks Proof.SigFacts Proof.IoProps Proof.BaseDec Proof.KeyFacts.
From Verif Require Import Model.Sign.
Open Scope Z_scope.

Lemma be32_spec : forall x, be32 x = be_bytes 4 x.
Proof.
  intros x. unfold be32, be_bytes. cbn [le_bytes rev app].
  change 255 with (Z.ones 8). rewrite !Z.land_ones, !Z.shiftr_div_pow2 by lia.
  rewrite Z.pow_0_r, Z.div_1_r. change (2^8) with 256. change (2^16) with (256*256). change (2^24) with (256*256*256).
  rewrite <- !Z.div_div by lia. reflexivity.
Qed.
Lemma bytes_ok_set : forall l i v, bytes_ok l -> byte_ok v -> bytes_ok (set_nth l i v).
Proof.
  induction l as [|x l IH]; intros [|i] v H V; cbn [set_nth]; auto; constructor; auto;
    try apply (Forall_inv H); try apply (Forall_inv_tail H). apply IH; auto. apply (Forall_inv_tail H).
Qed.

(** Filling an array of the key from a block of bytes. *)
Section Fill.
Variable K : Type.
Variable loop : K -> Z -> list Z -> K * Z * list Z.
Variable mk : list Z -> K.
Variable lo : Z.
Variable size : nat.
Hypothesis step : forall arr i c rest, length arr = size -> 0 <= i < Z.of_nat size ->
  loop (mk arr) (lo + i) (c :: rest) = loop (mk (set_nth arr (Z.to_nat i) c)) (lo + i + 1) rest.
Lemma fill_block : forall blk done old rest, length blk = length old -> (length done + length old = size)%nat ->
  loop (mk (done ++ old)) (lo + len done) (blk ++ rest) = loop (mk (done ++ blk)) (lo + Z.of_nat size) rest.
Proof.
  induction blk as [|c blk IH]; intros done old rest L S.
  - destruct old; [|discriminate]. cbn [app]. f_equal. unfold len. cbn in S. lia.
  - destruct old as [|o old]; [discriminate|]. cbn [app length] in *. rewrite step.
    + replace (Z.to_nat (len done)) with (length done) by (unfold len; lia). rewrite set_nth_app_mid.
      replace (done ++ c :: old) with ((done ++ [c]) ++ old) by (rewrite <- app_assoc; reflexivity).
      replace (lo + len done + 1) with (lo + len (done ++ [c])) by (rewrite len_app, len_cons, len_nil; lia).
      rewrite IH; [rewrite <- app_assoc; reflexivity|lia|rewrite app_length; cbn; lia].
    + rewrite app_length. cbn. lia.
    + unfold len. lia.
Qed.
Lemma fill_all : forall blk old rest, length blk = size -> length old = size ->
  loop (mk old) lo (blk ++ rest) = loop (mk blk) (lo + Z.of_nat size) rest.
Proof.
  intros blk old rest L1 L2. pose proof (fill_block blk [] old rest ltac:(congruence) L2) as H.
  cbn [app] in H. rewrite len_nil, Z.add_0_r in H. exact H.
Qed.
End Fill.

Ltac decide_pos :=
  repeat match goal with
  | |- context [?a <? ?b] => destruct (Z.ltb_spec a b); [try lia|try lia]
  | |- context [?a =? ?b] => destruct (Z.eqb_spec a b); [try lia|try lia]
  end.

Lemma u32_child : forall a b c d old, byte_ok a -> byte_ok b -> byte_ok c -> byte_ok d ->
  u32 (u32 (u32 (u32 (u32 (u32 (u32 (u32 (old * 256) + a) * 256) + b) * 256) + c) * 256) + d) = be_val 256 [a; b; c; d].
Proof.
  intros a b c d old A B C D. unfold u32, byte_ok, be_val in *. cbn [be_acc].
  assert (T : forall x y, 0 <= y -> (((x mod 2^32) * 256) mod 2^32 + y) mod 2^32 = (x * 256 + y) mod 2^32) by (intros; dlia).
  rewrite (Z.add_mod_idemp_l (old * 256) a) by lia. rewrite (T (old * 256 + a) b), (T _ c), (T _ d) by lia.
  symmetry. apply Z.mod_unique with old; [left|]; lia.
Qed.

Lemma hk_step : forall k k' pos c t, pos < 78 -> hk_store k pos c = k' -> hk_status k' <> FAILED ->
  hk_loop k pos (c :: t) = hk_loop k' (pos + 1) t.
Proof.
  intros k k' pos c t H <- N. cbn [hk_loop]. destruct (Z.ltb_spec pos 78); [|lia]. cbv zeta.
  destruct (hk_status (hk_store k pos c)); congruence.
Qed.
Lemma hk_child_step : forall num ch dp fp cn net ty px ps pos c t, 9 <= pos < 13 ->
  hk_loop (mkHk num ch dp fp cn net ty px INCOMPLETE ps) pos (c :: t) =
  hk_loop (mkHk num ch dp fp (u32 (u32 (cn * 256) + c)) net ty px INCOMPLETE ps) (pos + 1) t.
Proof. intros. apply hk_step; [lia| |discriminate]. unfold hk_store. decide_pos. reflexivity. Qed.
Lemma hk_prefix_step : forall num ch dp fp cn net ty px ps pos c t, 0 <= pos < 3 ->
  hk_loop (mkHk num ch dp fp cn net ty px INCOMPLETE ps) pos (c :: t) =
  hk_loop (mkHk num ch dp fp cn net ty (set_nth px (Z.to_nat pos) c) INCOMPLETE ps) (pos + 1) t.
Proof. intros. apply hk_step; [lia| |discriminate]. unfold hk_store. decide_pos. reflexivity. Qed.
(** The part after the prefix. *)
Lemma hk_fields : forall num ch dp fp cn net ty px ps dp' fp' a b c d ch' z num' rest,
  length num = 32%nat -> length ch = 32%nat -> length fp = 4%nat ->
  length num' = 32%nat -> length ch' = 32%nat -> length fp' = 4%nat -> bytes_ok [a; b; c; d] ->
  hk_loop (mkHk num ch dp fp cn net ty px INCOMPLETE ps) 4 ([dp'] ++ fp' ++ [a; b; c; d] ++ ch' ++ [z] ++ num' ++ rest) =
  if z =? 0 then (mkHk num' ch' dp' fp' (be_val 256 [a; b; c; d]) net ty px INCOMPLETE ps, 78, rest)
  else (mkHk num ch' dp' fp' (be_val 256 [a; b; c; d]) net ty px FAILED ps, 46, num' ++ rest).
Proof.
  intros num ch dp fp cn net ty px ps dp' fp' a b c d ch' z num' rest L1 L2 L3 L4 L5 L6 B.
  cbn [app]. rewrite (hk_step _ (mkHk num ch dp' fp cn net ty px INCOMPLETE ps)) by (lia || reflexivity || discriminate).
  change (4 + 1) with 5.
  rewrite (fill_all _ hk_loop (fun f => mkHk num ch dp' f cn net ty px INCOMPLETE ps) 5 4); auto.
  2: { intros arr i x r La Hi. cbn [hk_loop]. unfold hk_store. decide_pos. cbn [hk_status].
       replace (5 + i - 5) with i by lia. reflexivity. }
  change (5 + Z.of_nat 4) with 9. cbn [app].
  inversion B as [|? ? A1 B1]; subst. inversion B1 as [|? ? A2 B2]; subst. inversion B2 as [|? ? A3 B3]; subst. inversion B3 as [|? ? A4 _]; subst.
  rewrite !hk_child_step by lia.
  rewrite u32_child by auto. change (9 + 1 + 1 + 1 + 1) with 13.
  rewrite (fill_all _ hk_loop (fun f => mkHk num f dp' fp' (be_val 256 [a; b; c; d]) net ty px INCOMPLETE ps) 13 32); auto.
  2: { intros arr i x r La Hi. cbn [hk_loop]. unfold hk_store. decide_pos. cbn [hk_status].
       replace (13 + i - 13) with i by lia. reflexivity. }
  change (13 + Z.of_nat 32) with 45. cbn [app].
  destruct (Z.eqb_spec z 0) as [->|NZ].
  2: { cbn [hk_loop]. change (45 <? 78) with true. cbv iota zeta. unfold hk_store.
       change (45 <? 4) with false; change (45 <? 5) with false; change (45 <? 9) with false; change (45 <? 13) with false.
       change (45 <? 45) with false. change (45 <? 46) with true. cbv iota. destruct (Z.eqb_spec z 0); [congruence|]. reflexivity. }
  rewrite (hk_step _ (mkHk num ch' dp' fp' (be_val 256 [a; b; c; d]) net ty px INCOMPLETE ps)) by (lia || reflexivity || discriminate).
  change (45 + 1) with 46.
  rewrite (fill_all _ hk_loop (fun f => mkHk f ch' dp' fp' (be_val 256 [a; b; c; d]) net ty px INCOMPLETE ps) 46 32); auto.
  2: { intros arr i x r La Hi. cbn [hk_loop]. unfold hk_store. decide_pos. cbn [hk_status].
       replace (46 + i - 46) with i by lia. reflexivity. }
  change (46 + Z.of_nat 32) with 78. destruct rest; reflexivity.
Qed.
Lemma hk_prefix_loop : forall num ch dp fp cn net ty px ps p0 p1 p2 p3 rest, length px = 4%nat ->
  hk_loop (mkHk num ch dp fp cn net ty px INCOMPLETE ps) 0 ([p0; p1; p2; p3] ++ rest) =
  match find_net prv_type_in [p0; p1; p2; p3] networks with
  | Some (net', ty') => hk_loop (mkHk num ch dp fp cn net' ty' [p0; p1; p2; p3] INCOMPLETE ps) 4 rest
  | None => (mkHk num ch dp fp cn net ty [p0; p1; p2; p3] FAILED ps, 4, rest)
  end.
Proof.
  intros num ch dp fp cn net ty px ps p0 p1 p2 p3 rest L.
  destruct px as [|x0 [|x1 [|x2 [|x3 [|]]]]]; try discriminate. cbn [app].
  rewrite !hk_prefix_step by lia. change (Z.to_nat 0) with 0%nat. change (Z.to_nat (0 + 1)) with 1%nat. change (Z.to_nat (0 + 1 + 1)) with 2%nat. cbn [set_nth].
  cbn [hk_loop]. change (0 + 1 + 1 + 1 <? 78) with true. cbv iota zeta.
  change (hk_store (mkHk num ch dp fp cn net ty [p0; p1; p2; x3] INCOMPLETE ps) (0 + 1 + 1 + 1) p3) with
    (match find_net prv_type_in [p0; p1; p2; p3] networks with
     | Some (net', ty') => mkHk num ch dp fp cn net' ty' [p0; p1; p2; p3] INCOMPLETE ps
     | None => mkHk num ch dp fp cn net ty [p0; p1; p2; p3] FAILED ps end).
  destruct (find_net prv_type_in [p0; p1; p2; p3] networks) as [[net' ty']|]; reflexivity.
Qed.
(** 78 bytes in one piece. *)
Lemma hk_parse_all : forall k px dp fp cn ch z num rest, hk_sized k -> hk_status k = DONE ->
  length px = 4%nat -> length fp = 4%nat -> length cn = 4%nat -> length ch = 32%nat -> length num = 32%nat -> bytes_ok cn ->
  hk_parse k (px ++ [dp] ++ fp ++ cn ++ ch ++ [z] ++ num ++ rest) =
  match find_net prv_type_in px networks with
  | None => (mkHk (hk_num k) (hk_chain k) (hk_depth k) (hk_fp k) (hk_child k) (hk_net k) (hk_type k) px FAILED 0, 4,
             [dp] ++ fp ++ cn ++ ch ++ [z] ++ num ++ rest)
  | Some (net, ty) =>
      if z =? 0 then (mkHk (reduce_num num) ch dp fp (be_val 256 cn) net ty px (if beq num (zeros 32) then FAILED else DONE) 78, 78, rest)
      else (mkHk (hk_num k) ch dp fp (be_val 256 cn) net ty px FAILED 0, 46, num ++ rest)
  end.
Proof.
  intros k px dp fp cn ch z num rest (S1 & S2 & S3 & S4) D L1 L2 L3 L4 L5 B. unfold hk_parse. rewrite D.
  destruct px as [|p0 [|p1 [|p2 [|p3 [|]]]]]; try discriminate.
  destruct cn as [|c0 [|c1 [|c2 [|c3 [|]]]]]; try discriminate.
  unfold hk_body, hk_start. cbn [hk_parsed]. rewrite hk_prefix_loop by exact S4.
  destruct (find_net prv_type_in [p0; p1; p2; p3] networks) as [[net ty]|]; [|reflexivity].
  rewrite hk_fields by assumption. destruct (z =? 0); reflexivity.
Qed.

(** What the prefixes denote. *)
Lemma prv_prefix : forall test t v, slip132_prv test t = Some v ->
  prv_version (net_of test) t = be_bytes 4 v /\ find_net prv_type_in (be_bytes 4 v) networks = Some (net_of test, t).
Proof. intros [] [] v H; inversion H; subst; split; vm_compute; reflexivity. Qed.
Lemma prv_prefix_only : forall px net t, find_net prv_type_in px networks = Some (net, t) ->
  exists test v, net = net_of test /\ slip132_prv test t = Some v /\ px = be_bytes 4 v.
Proof.
  intros px net t H. unfold networks, find_net, prv_type_in, beq in H.
  repeat (destruct (list_eq_dec Z.eq_dec px _) as [->|_] in H;
    [inversion H; subst; first [exists false; eexists; split; [reflexivity|]; split; [reflexivity|vm_compute; reflexivity]
                               |exists true; eexists; split; [reflexivity|]; split; [reflexivity|vm_compute; reflexivity]]|]).
  discriminate.
Qed.
Lemma pub_prefix : forall test t v, slip132_pub test t = Some v ->
  pub_version (net_of test) t = be_bytes 4 v /\ find_net pub_type_in (be_bytes 4 v) networks = Some (net_of test, t).
Proof. intros [] [] v H; inversion H; subst; split; vm_compute; reflexivity. Qed.
Lemma pub_prefix_only : forall px net t, find_net pub_type_in px networks = Some (net, t) ->
  exists test v, net = net_of test /\ slip132_pub test t = Some v /\ px = be_bytes 4 v.
Proof.
  intros px net t H. unfold networks, find_net, pub_type_in, beq in H.
  repeat (destruct (list_eq_dec Z.eq_dec px _) as [->|_] in H;
    [inversion H; subst; first [exists false; eexists; split; [reflexivity|]; split; [reflexivity|vm_compute; reflexivity]
                               |exists true; eexists; split; [reflexivity|]; split; [reflexivity|vm_compute; reflexivity]]|]).
  discriminate.
Qed.

(** * Parsing in pieces *)
Section Pieces.
Variable K : Type.
Variable store : K -> Z -> Z -> K.
Variable status : K -> pstatus.
Variable parsed : K -> Z.
Variable setp : K -> Z -> K.
Variable start : K -> Z -> K.
Variable finish : K -> Z -> outcome K.
Fixpoint gloop (k : K) (pos : Z) (st : list Z) : K * Z * list Z :=
  match st with
  | [] => (k, pos, [])
  | c :: t =>
      if pos <? 78 then
        match status (store k pos c) with
        | FAILED => (store k pos c, pos + 1, t)
        | _ => gloop (store k pos c) (pos + 1) t
        end
      else (k, pos, st)
  end.
Definition gbody (k : K) (st : list Z) : outcome (K * Z * list Z) :=
  let '(k', pos, rest) := gloop k (parsed k) st in
  match status k' with
  | FAILED => Ok (k', pos - parsed k, rest)
  | _ => let! k'' := finish k' pos in Ok (k'', pos - parsed k, rest)
  end.
Definition gparse (k : K) (st : list Z) : outcome (K * Z * list Z) :=
  match status k with
  | FAILED => Ok (k, 0, st)
  | DONE => gbody (start k 0) st
  | INCOMPLETE => gbody (start k (parsed k)) st
  end.
Hypothesis store_status : forall k p c, status k = INCOMPLETE -> status (store k p c) = INCOMPLETE \/ status (store k p c) = FAILED.
Hypothesis store_setp : forall k ps p c, store (setp k ps) p c = setp (store k p c) ps.

Hypothesis setp_status : forall k ps, status (setp k ps) = status k.
Hypothesis setp_parsed : forall k ps, parsed (setp k ps) = ps.
Hypothesis setp_setp : forall k a b, setp (setp k a) b = setp k b.
Hypothesis start_status : forall k ps, status (start k ps) = INCOMPLETE.
Hypothesis start_parsed : forall k ps, parsed (start k ps) = ps.
Hypothesis start_again : forall k, status k = INCOMPLETE -> start k (parsed k) = k.
Hypothesis finish_more : forall k p, p <> 78 -> finish k p = Ok (setp k p).
Hypothesis finish_setp : forall k ps, finish (setp k ps) 78 = finish k 78.
Hypothesis finish_done : forall k k', finish k 78 = Ok k' -> status k' <> INCOMPLETE.

Lemma gloop_keep : forall a k pos k1 p1 r1, gloop k pos a = (k1, p1, r1) -> status k = INCOMPLETE -> 0 <= pos <= 78 ->
  pos <= p1 <= 78 /\ (status k1 = INCOMPLETE \/ status k1 = FAILED) /\
  (status k1 = INCOMPLETE -> p1 < 78 -> r1 = []).
Proof.
  induction a as [|c a IH]; intros k pos k1 p1 r1 H S P.
  - cbn [gloop] in H. injection H as <- <- <-. repeat split; auto; lia.
  - cbn [gloop] in H. destruct (Z.ltb_spec pos 78) as [L|L].
    2: { injection H as <- <- <-. repeat split; auto; lia. }
    destruct (store_status k pos c S) as [Q2|Q2]; rewrite Q2 in H.
    + apply IH in H; auto; [|lia]. intuition lia.
    + injection H as <- <- <-. rewrite Q2. repeat split; auto; try lia. discriminate.
Qed.
Lemma gloop_app : forall a k pos b, status k = INCOMPLETE -> 0 <= pos <= 78 ->
  gloop k pos (a ++ b) =
  let '(k1, p1, r1) := gloop k pos a in
  match status k1 with
  | FAILED => (k1, p1, r1 ++ b)
  | _ => gloop k1 p1 (r1 ++ b)
  end.
Proof.
  induction a as [|c a IH]; intros k pos b S H; [cbn [gloop app]; rewrite S; reflexivity|]. cbn [app gloop].
  destruct (Z.ltb_spec pos 78) as [L|L].
  - destruct (store_status k pos c S) as [Q|Q]; rewrite Q; [apply IH; auto; lia|rewrite Q; reflexivity].
  - rewrite S. cbn [app gloop]. destruct (Z.ltb_spec pos 78); [lia|reflexivity].
Qed.
Lemma gloop_setp : forall a k ps pos, gloop (setp k ps) pos a =
  let '(k1, p1, r1) := gloop k pos a in (setp k1 ps, p1, r1).
Proof.
  induction a as [|c a IH]; intros k ps pos; [reflexivity|]. cbn [gloop].
  destruct (pos <? 78); [|reflexivity]. rewrite store_setp, setp_status.
  destruct (status (store k pos c)); [apply IH|apply IH|reflexivity].
Qed.
Definition ginv (k : K) : Prop := status k = INCOMPLETE -> 0 <= parsed k < 78.
Lemma gbody_two : forall h a b, status h = INCOMPLETE -> 0 <= parsed h < 78 ->
  same_result status (gbody h (a ++ b)) (chain gparse status (gbody h a) b).
Proof.
  intros h a b S P. unfold chain, gbody. rewrite gloop_app by (auto; lia).
  destruct (gloop h (parsed h) a) as [[k1 p1] r1] eqn:E.
  destruct (gloop_keep _ _ _ _ _ _ E S ltac:(lia)) as (R1 & R3 & R4).
  destruct R3 as [S1|S1]; rewrite S1.
  2: { rewrite S1. cbn [bind]. rewrite S1. left. reflexivity. }
  destruct (Z.eq_dec p1 78) as [->|N].
  - assert (T : gloop k1 78 (r1 ++ b) = (k1, 78, r1 ++ b)) by (destruct (r1 ++ b); reflexivity).
    rewrite T, S1. left. destruct (finish k1 78) as [k2|] eqn:F; [|reflexivity]. cbn [bind].
    pose proof (finish_done _ _ F). destruct (status k2); [reflexivity|congruence|reflexivity].
  - rewrite (R4 S1 ltac:(lia)). cbn [app]. rewrite finish_more by exact N. cbn [bind]. rewrite setp_status, S1.
    unfold gparse. rewrite setp_status, S1. rewrite start_again by (rewrite setp_status; exact S1).
    unfold gbody. rewrite setp_parsed, gloop_setp.
    destruct (gloop k1 p1 b) as [[k2 p2] r2] eqn:E2.
    destruct (gloop_keep _ _ _ _ _ _ E2 S1 ltac:(lia)) as (T1 & T3 & T4). rewrite setp_status.
    destruct T3 as [S2|S2]; rewrite S2.
    + left. destruct (Z.eq_dec p2 78) as [->|N2].
      * rewrite finish_setp. destruct (finish k2 78); cbn [bind]; [|reflexivity]. do 3 f_equal. lia.
      * rewrite !finish_more by exact N2. cbn [bind]. rewrite setp_setp. do 3 f_equal. lia.
    + right. cbn [bind]. split; [exists k2, (p2 - parsed h), r2; auto|].
      exists (setp k2 p1), (p1 - parsed h + (p2 - p1)), r2. rewrite setp_status. auto.
Qed.
Lemma gtwo : forall k a b, ginv k -> a <> [] -> b <> [] -> bytes_ok a -> bytes_ok b ->
  gparse k (a ++ b) <> UB -> same_result status (gparse k (a ++ b)) (chain gparse status (gparse k a) b).
Proof.
  intros k a b I _ _ _ _ _. unfold gparse at 1 3. destruct (status k) eqn:S.
  - apply gbody_two; [apply start_status|rewrite start_parsed; lia].
  - apply gbody_two; [apply start_status|rewrite start_parsed; auto].
  - left. unfold chain. cbn [bind]. rewrite S. reflexivity.
Qed.
Lemma gbody_inc : forall h a k1 n1 r1, status h = INCOMPLETE -> 0 <= parsed h < 78 -> gbody h a = Ok (k1, n1, r1) ->
  status k1 = INCOMPLETE -> r1 = [] /\ ginv k1.
Proof.
  intros h a k1 n1 r1 S P H S1. unfold gbody in H. destruct (gloop h (parsed h) a) as [[k2 p2] r2] eqn:E.
  destruct (gloop_keep _ _ _ _ _ _ E S ltac:(lia)) as (R1 & R3 & R4).
  destruct R3 as [S2|S2]; rewrite S2 in H; [|injection H as <- _ _; congruence].
  destruct (Z.eq_dec p2 78) as [->|N].
  - destruct (finish k2 78) as [k3|] eqn:F; [|discriminate]. cbn [bind] in H. injection H as <- _ _.
    exfalso. apply (finish_done _ _ F S1).
  - rewrite finish_more in H by exact N. cbn [bind] in H. injection H as <- _ <-. split; [apply R4; auto; lia|].
    intros _. rewrite setp_parsed. lia.
Qed.
Lemma ginc : forall k a k1 n1 r1, ginv k -> a <> [] -> bytes_ok a -> gparse k a = Ok (k1, n1, r1) ->
  status k1 = INCOMPLETE -> r1 = [] /\ ginv k1.
Proof.
  intros k a k1 n1 r1 I _ _ H S1. unfold gparse in H. destruct (status k) eqn:S.
  - eapply gbody_inc; [| |exact H|exact S1]; [apply start_status|rewrite start_parsed; lia].
  - eapply gbody_inc; [| |exact H|exact S1]; [apply start_status|rewrite start_parsed; auto].
  - injection H as <- _ _. congruence.
Qed.
Lemma gchunks : forall k, ginv k -> chunk_invariant gparse status k.
Proof.
  intros k I chunks NE F D. eapply (feed_same gparse status ginv); eauto using gtwo, ginc.
Qed.
(** A successful parse of a fresh key has read 78 bytes. *)
Lemma gparse_done : forall k a k1 n1 r1, gparse k a = Ok (k1, n1, r1) -> status k = DONE -> status k1 = DONE ->
  78 <= len a.
Proof.
  intros k a k1 n1 r1 H S D. unfold gparse in H. rewrite S in H. unfold gbody in H. rewrite start_parsed in H.
  destruct (gloop (start k 0) 0 a) as [[k2 p2] r2] eqn:E.
  assert (G : forall a k pos k1 p1 r1, gloop k pos a = (k1, p1, r1) -> p1 + len r1 = pos + len a).
  { clear. induction a as [|c a IH]; intros k pos k1 p1 r1 H; cbn [gloop] in H; [injection H as _ <- <-; reflexivity|].
    rewrite len_cons. destruct (pos <? 78); [|injection H as _ <- <-; rewrite len_cons; lia].
    destruct (status (store k pos c)); [apply IH in H; lia|apply IH in H; lia|injection H as _ <- <-; lia]. }
  pose proof (G _ _ _ _ _ _ E) as G1. pose proof (len_nonneg _ r2).
  destruct (gloop_keep _ _ _ _ _ _ E (start_status k 0) ltac:(lia)) as (R1 & R3 & R4).
  destruct R3 as [S2|S2]; rewrite S2 in H; [|injection H as <- _ _; congruence].
  destruct (Z.eq_dec p2 78) as [->|N]; [lia|].
  rewrite finish_more in H by exact N. cbn [bind] in H. injection H as <- _ _. rewrite setp_status in D. congruence.
Qed.
End Pieces.

Definition hk_setp (k : hdpriv) (ps : Z) : hdpriv :=
  mkHk (hk_num k) (hk_chain k) (hk_depth k) (hk_fp k) (hk_child k) (hk_net k) (hk_type k) (hk_prefix k) (hk_status k) ps.
Definition hk_go (k : hdpriv) (st : list Z) : outcome (hdpriv * Z * list Z) := Ok (hk_parse k st).
Lemma hk_loop_g : forall st k pos, hk_loop k pos st = gloop _ hk_store hk_status k pos st.
Proof.
  induction st as [|c st IH]; intros k pos; [reflexivity|]. cbn [hk_loop gloop]. destruct (pos <? 78); [|reflexivity].
  destruct (hk_status (hk_store k pos c)); auto.
Qed.
Notation hk_fin := (fun k p => Ok (hk_finish k p)).
Lemma hk_body_g : forall k st, Ok (hk_body k st) = gbody _ hk_store hk_status hk_parsed hk_fin k st.
Proof.
  intros k st. unfold hk_body, gbody. rewrite hk_loop_g. destruct (gloop _ _ _ _ _ _) as [[k' pos] rest].
  destruct (hk_status k'); reflexivity.
Qed.
Lemma hk_go_g : forall k st, hk_go k st = gparse _ hk_store hk_status hk_parsed hk_start hk_fin k st.
Proof. intros k st. unfold hk_go, hk_parse, gparse. destruct (hk_status k); [apply hk_body_g|apply hk_body_g|reflexivity]. Qed.
Lemma hk_h1 : forall k p c, hk_status k = INCOMPLETE -> hk_status (hk_store k p c) = INCOMPLETE \/ hk_status (hk_store k p c) = FAILED.
Proof.
  intros [num ch dp fp cn net ty px st ps] pos c S. cbn [hk_status] in S. subst st. unfold hk_store.
  repeat match goal with |- context [if ?x then _ else _] => destruct x end; cbn [hk_status]; auto.
  destruct (find_net _ _ _) as [[? ?]|]; cbn [hk_status]; auto.
Qed.
Lemma hk_h2 : forall k ps p c, hk_store (hk_setp k ps) p c = hk_setp (hk_store k p c) ps.
Proof.
  intros [num ch dp fp cn net ty px st ps] ps' pos c. unfold hk_store, hk_setp. cbn [hk_num hk_chain hk_depth hk_fp hk_child hk_net hk_type hk_prefix hk_status].
  repeat match goal with |- context [if pos <? ?x then _ else _] => destruct (pos <? x) end; try reflexivity.
  destruct (pos =? 3); [|reflexivity]. destruct (find_net _ _ _) as [[? ?]|]; reflexivity.
Qed.
Lemma hk_h11 : forall k k', hk_fin k 78 = Ok k' -> hk_status k' <> INCOMPLETE.
Proof.
  intros [num ch dp fp cn net ty px st ps] k' H. injection H as <-. cbn [hk_status hk_finish]. change (78 =? 78) with true. cbv iota.
  cbn [hk_status]. destruct (beq _ _); discriminate.
Qed.
Lemma hk_h9 : forall k p, p <> 78 -> hk_fin k p = Ok (hk_setp k p).
Proof. intros [] p H. unfold hk_finish. destruct (Z.eqb_spec p 78); [congruence|reflexivity]. Qed.
Lemma hk_h8 : forall k, hk_status k = INCOMPLETE -> hk_start k (hk_parsed k) = k.
Proof. intros [] H. cbn in H. subst. reflexivity. Qed.
Lemma chunk_invariant_ext : forall St (p q : St -> list Z -> outcome (St * Z * list Z)) status s, (forall s l, p s l = q s l) ->
  chunk_invariant p status s -> chunk_invariant q status s.
Proof.
  intros St p q status s E H chunks NE F D. assert (X : forall c s, feed p status s c = feed q status s c).
  { induction c as [|c t IH]; intros s0; [reflexivity|]. cbn [feed]. rewrite E.
    destruct (q s0 c) as [[[s1 n1] r1]|]; [|reflexivity]. cbn [bind]. destruct (status s1); try reflexivity. rewrite IH. reflexivity. }
  rewrite <- X, <- E. apply H; auto. rewrite E. exact D.
Qed.
Lemma hk_chunks : forall k, hk_status k <> INCOMPLETE -> chunk_invariant hk_go hk_status k.
Proof.
  intros k H. apply (chunk_invariant_ext _ (gparse _ hk_store hk_status hk_parsed hk_start hk_fin)).
  { intros. symmetry. apply hk_go_g. }
  apply (gchunks _ hk_store hk_status hk_parsed hk_setp hk_start hk_fin);
    [apply hk_h1|apply hk_h2|reflexivity|reflexivity|reflexivity|reflexivity|reflexivity|apply hk_h8|apply hk_h9
    |intros [] ?; reflexivity|apply hk_h11|intros X; congruence].
Qed.
