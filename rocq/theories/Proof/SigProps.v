(** Properties of signature objects. *)
From Coq Require Import Lia.
From Verif Require Import Base.Bytes Base.BytesFacts Model.Conversion Model.Stream Model.Script Model.Signature
  Spec.Codecs Spec.Wire Spec.Objects Spec.Signature Proof.StreamFacts Proof.Chunks Proof.WitnessFacts Proof.IoProps Proof.SigFacts.
Open Scope Z_scope.

Lemma der_of_sig : forall r s, length r = 32%nat -> bytes_ok r -> length s = 32%nat -> bytes_ok s ->
  der_sig (be_val 256 r) (be_val 256 s) (der_of r s).
Proof.
  intros r s L1 B1 L2 B2. destruct (sbody_spec r L1 B1) as (_ & _ & D1 & _). destruct (sbody_spec s L2 B2) as (_ & _ & D2 & _).
  exists (sbody r), (sbody s). split; auto.
Qed.
Lemma der_sig_of : forall x y d, der_sig x y d -> 0 <= x < 2^256 -> 0 <= y < 2^256 ->
  exists r s, length r = 32%nat /\ bytes_ok r /\ length s = 32%nat /\ bytes_ok s /\
    be_val 256 r = x /\ be_val 256 s = y /\ d = der_of r s.
Proof.
  intros x y d (a & b & A & B & ->) X Y.
  destruct (der_integer_array x a A X) as (r & L1 & B1 & V1 & ->).
  destruct (der_integer_array y b B Y) as (s & L2 & B2 & V2 & ->).
  exists r, s. repeat split; auto.
Qed.
Lemma der_of_range : forall r s, length r = 32%nat -> bytes_ok r -> length s = 32%nat -> bytes_ok s ->
  8 <= len (der_of r s) <= 72.
Proof.
  intros r s L1 B1 L2 B2. destruct (sbody_spec r L1 B1) as (R1 & E1 & _). destruct (sbody_spec s L2 B2) as (R2 & E2 & _).
  rewrite der_of_len. lia.
Qed.

Lemma der_writes : forall g x y, sig_holds g x y -> exists d, der_sig x y d /\ 8 <= len d <= 72 /\ sig_length g = len d /\
  (forall n, (length d <= n)%nat -> sig_der g n = Ok (len d, d ++ zeros (n - length d))) /\
  gives_slices (sig_to_stream g) d.
Proof.
  intros g x y (L1 & B1 & <- & L2 & B2 & <-). exists (der_of (sg_r g) (sg_s g)).
  pose proof (der_of_range _ _ L1 B1 L2 B2) as R.
  assert (LN : sig_length g = len (der_of (sg_r g) (sg_s g))).
  { unfold sig_length, sig_rlen, sig_slen. rewrite der_of_len.
    destruct (sbody_spec _ L1 B1) as (_ & E1 & _). destruct (sbody_spec _ L2 B2) as (_ & E2 & _). lia. }
  split; [apply der_of_sig; auto|]. split; auto. split; auto.
  split; [intros; apply sig_der_ok; auto|].
  apply serializes_slices. set (d := der_of (sg_r g) (sg_s g)) in *.
  assert (LD : (length d <= 72)%nat) by (unfold len in R; lia).
  apply (writes_serializes d (write_loop 72 0 (sig_length g) (d ++ zeros (72 - length d)))).
  - rewrite LN. pose proof (writes_loop 72 0 (len d) (d ++ zeros (72 - length d))) as W.
    replace (firstn (Z.to_nat (len d)) (d ++ zeros (72 - length d))) with d in W.
    2:{ symmetry. apply firstn_app_len. unfold len. lia. }
    apply W; [rewrite len_app; pose proof (len_nonneg _ d); pose proof (len_nonneg _ (zeros (72 - length d))); lia|lia].
  - intros cap off. unfold sig_to_stream.
    pose proof (sig_der_ok g 72 L1 B1 L2 B2 LD) as E. cbv zeta in E. fold d in E. rewrite E. cbn [bind snd]. reflexivity.
Qed.

Lemma der_parses : forall g0 x y d rest, sg_status g0 = DONE -> der_sig x y d -> 0 <= x < 2^256 -> 0 <= y < 2^256 ->
  exists g, sig_parse g0 (d ++ rest) = Ok (g, len d, rest) /\ sg_status g = DONE /\ sig_holds g x y.
Proof.
  intros g0 x y d rest ST H X Y. destruct (der_sig_of x y d H X Y) as (r & s & L1 & B1 & L2 & B2 & <- & <- & ->).
  destruct (sbody_spec r L1 B1) as (R1 & E1 & _). destruct (sbody_spec s L2 B2) as (R2 & E2 & _).
  change (der_of r s ++ rest) with (with_total (der_of r s) (4 + len (sbody r) + len (sbody s)) ++ rest).
  rewrite sig_parse_der by (auto; lia).
  eexists. split; [reflexivity|]. split; [reflexivity|]. repeat split; auto.
Qed.

Lemma der_total_ignored : forall g0 x y d t rest, sg_status g0 = DONE -> der_sig x y d -> 0 <= x < 2^256 -> 0 <= y < 2^256 ->
  0 <= t <= 70 ->
  exists g, sig_parse g0 (with_total d t ++ rest) = Ok (g, len d, rest) /\ sg_status g = DONE /\ sig_holds g x y.
Proof.
  intros g0 x y d t rest ST H X Y T. destruct (der_sig_of x y d H X Y) as (r & s & L1 & B1 & L2 & B2 & <- & <- & ->).
  rewrite sig_parse_der by auto.
  eexists. split; [reflexivity|]. split; [reflexivity|]. repeat split; auto.
Qed.

Lemma der_strict : forall g0 st g n rest, bytes_ok st -> sg_status g0 = DONE ->
  sig_parse g0 st = Ok (g, n, rest) -> sg_status g = DONE ->
  exists x y d t, sig_holds g x y /\ der_sig x y d /\ 0 <= t <= 70 /\ st = with_total d t ++ rest /\ n = len d.
Proof.
  intros g0 st g n rest B ST H D.
  destruct (sig_parse_inv g0 st g n rest B ST H D) as (r & s & t & L1 & B1 & L2 & B2 & T & E1 & E2 & E3 & E4).
  exists (be_val 256 r), (be_val 256 s), (der_of r s), t. split; [repeat split; congruence|]. split; [apply der_of_sig; auto|]. auto.
Qed.

(** ** Any byte string: no undefined behaviour, and when the first chunk fails *)
Definition needs (need : Z) (r : outcome (signature * Z * list Z)) (avail : Z) : Prop :=
  exists g n rest, r = Ok (g, n, rest) /\ (sg_status g <> FAILED -> need <= avail).
Lemma gate_needs : forall cond limit f k g pos st need avail,
  (forall c t, st = c :: t -> cond = true -> pos < limit -> snd (f c g) = true ->
     needs need (k (fst (f c g)) (pos + 1) t) avail) ->
  (st = [] \/ cond = false \/ limit <= pos -> needs need (k g pos st) avail) ->
  needs need (sig_gate cond limit f k g pos st) avail.
Proof.
  intros cond limit f k g pos st need avail H1 H2. unfold sig_gate. destruct st as [|c t]; [auto|].
  destruct cond; cbn [andb]; [|auto]. destruct (Z.ltb_spec pos limit); [|auto].
  specialize (H1 c t eq_refl eq_refl H). destruct (f c g) as [h ok]; cbn [fst snd] in H1. destruct ok; auto.
  do 3 eexists. split; [reflexivity|]. cbn. congruence.
Qed.
Lemma fill_any : forall off limit pos f st, (forall a p c, f a p c = aset a (p - off) c) -> off <= pos -> limit = off + 32 ->
  pos <= limit ->
  exists x pos1 rest, read_loop_o limit pos f (zeros 32) st = Ok (x, pos1, rest).
Proof.
  intros off limit pos f st F P -> Q.
  replace (zeros 32) with (zeros (Z.to_nat (pos - off)) ++ zeros (Z.to_nat (off + 32 - pos))).
  2:{ unfold zeros. rewrite <- repeat_app. f_equal. lia. }
  rewrite (fill_loop off _ f F) by (rewrite ?len_zeros; lia). eauto.
Qed.
Lemma needs_weak : forall a b r v, b <= a -> needs a r v -> needs b r v.
Proof. intros a b r v H (g & n & rest & E & K). exists g, n, rest. split; auto. intro X. specialize (K X). lia. Qed.

Lemma parse_s_needs : forall g pos st, bytes_ok st -> sg_s g = zeros 32 -> sg_t2 g = 0 -> 0 <= sg_t1 g -> pos <= 4 + sg_t1 g ->
  (st <> [] -> pos = 4 + sg_t1 g) ->
  needs (6 + sg_t1 g) (sig_parse_s g pos st) (pos + len st).
Proof.
  intros g pos st B S0 T0 T1 P0 P. unfold sig_parse_s.
  assert (NIL : forall pos v, needs (6 + sg_t1 g) (let! r :=
      read_loop_o (4 + sg_t1 g + 2 + sg_t2 g) pos (fun a p c => aset a (p - 4 - sg_t1 g - 2 - sg_t2 g + 32) c)
        (sg_s g) [] in
    let '(s1, pos1, st1) := r in
    let g1 := set_s g s1 in
    if negb (sig_slen g1 =? sg_t2 g1) then Ok (sig_fail g1, pos1 - sg_parsed g, st1)
    else Ok (mkSig (sg_r g1) (sg_s g1) (sg_t0 g1) (sg_t1 g1) (sg_t2 g1) (sg_index g1)
           (if pos1 =? 4 + sg_t1 g + 2 + sg_t2 g then DONE else INCOMPLETE) pos1, pos1 - sg_parsed g, st1)) v).
  { intros pos' v. cbn [read_loop_o bind]. unfold sig_slen, set_s. cbn [sg_s sg_t2]. rewrite S0, T0.
    change (int_len (zeros 32) 33 =? 0) with false. cbn [negb].
    do 3 eexists. split; [reflexivity|]. cbn. congruence. }
  apply gate_needs.
  2:{ intros [->|[C|C]]; [|discriminate|].
      - rewrite !gate_nil. apply NIL.
      - destruct st; [rewrite !gate_nil; apply NIL|]. specialize (P ltac:(discriminate)). lia. }
  intros c t -> _ _ F. specialize (P ltac:(discriminate)). subst pos. cbn [fst snd] in *.
  pose proof (Forall_inv_tail B) as B1. clear B.
  apply gate_needs.
  2:{ intros [->|[C|C]]; [|discriminate|lia]. rewrite !gate_nil. apply NIL. }
  intros d u -> _ _ F2. cbn [fst snd] in *.
  assert (Hd : 0 <= d <= 33).
  { pose proof (Forall_inv B1) as B0. cbv beta in B0. unfold byte_ok in B0. destruct (Z.ltb_spec 33 d); [discriminate|lia]. }
  clear NIL. unfold set_t2. cbn [sg_r sg_s sg_t0 sg_t1 sg_t2 sg_index sg_status sg_parsed].
  assert (AV : 6 + sg_t1 g <= 4 + sg_t1 g + len (c :: d :: u)) by (rewrite !len_cons; pose proof (len_nonneg _ u); lia).
  set (av := 4 + sg_t1 g + len (c :: d :: u)) in *. clearbody av.
  assert (FIN : forall pos v, 4 + sg_t1 g + 2 + d - 32 <= pos -> pos <= 4 + sg_t1 g + 2 + d -> needs (6 + sg_t1 g) (let! r :=
      read_loop_o (4 + sg_t1 g + 2 + d) pos (fun a p c => aset a (p - 4 - sg_t1 g - 2 - d + 32) c)
        (sg_s g) v in
    let '(s1, pos1, st1) := r in
    let g1 := set_s (mkSig (sg_r g) (sg_s g) (sg_t0 g) (sg_t1 g) d (sg_index g) (sg_status g) (sg_parsed g)) s1 in
    if negb (sig_slen g1 =? sg_t2 g1) then Ok (sig_fail g1, pos1 - sg_parsed g, st1)
    else Ok (mkSig (sg_r g1) (sg_s g1) (sg_t0 g1) (sg_t1 g1) (sg_t2 g1) (sg_index g1)
           (if pos1 =? 4 + sg_t1 g + 2 + d then DONE else INCOMPLETE) pos1, pos1 - sg_parsed g, st1)) av).
  { intros pos v P1 P2. rewrite S0.
    destruct (fill_any (4 + sg_t1 g + 2 + d - 32) (4 + sg_t1 g + 2 + d) pos (fun a p c => aset a (p - 4 - sg_t1 g - 2 - d + 32) c) v)
      as (x & pos1 & rest & E); try lia.
    { intros. f_equal. lia. }
    rewrite E. cbn [bind]. match goal with |- context [if ?b then _ else _] => destruct b end;
    do 3 eexists; (split; [reflexivity|]); auto. }
  apply gate_needs.
  - intros z w -> Q _ _. apply Z.eqb_eq in Q. cbn [fst snd]. apply FIN; lia.
  - intros [->|[C|C]].
    + cbn [read_loop_o bind]. match goal with |- context [if ?b then _ else _] => destruct b end;
      do 3 eexists; (split; [reflexivity|]); auto.
    + apply Z.eqb_neq in C. apply FIN; lia.
    + lia.
Qed.

Lemma sig_parse_needs : forall g0 st, bytes_ok st -> sg_status g0 = DONE ->
  needs (6 + nth 3 st 0) (sig_parse g0 st) (len st).
Proof.
  intros g0 st B ST. unfold sig_parse. rewrite ST. unfold sig_parse_body. cbn [sg_parsed].
  assert (E0 : forall idx v need, needs need (sig_gate true 1 (fun c g => (g, c =? 48)) (fun g pos st => Ok (sig_fail g, pos, st)) (mkSig [] [] 0 0 0 idx INCOMPLETE 0) 0 []) v).
  { intros. cbn. do 3 eexists. split; [reflexivity|]. cbn; congruence. }
  assert (NIL : forall idx t pos v need, needs need
    (let! r := read_loop_o (4 + 0) pos (fun a p c => aset a (p - 4 + 32 - 0) c) (zeros 32) [] in
     let '(r1, pos1, st1) := r in
     let g1 := set_r (mkSig (zeros 32) (zeros 32) t 0 0 idx INCOMPLETE 0) r1 in
     if negb (sig_rlen g1 =? sg_t1 g1) then Ok (sig_fail g1, pos1 - 0, st1) else sig_parse_s g1 pos1 st1) v).
  { intros. cbn [read_loop_o bind]. cbv zeta. unfold sig_rlen, set_r. cbn [sg_r sg_t1].
    change (int_len (zeros 32) 33 =? 0) with false. cbn [negb]. do 3 eexists. split; [reflexivity|]. cbn; congruence. }
  apply gate_needs; [|intros [->|[C|C]]; [|discriminate|lia]].
  2:{ rewrite !gate_nil. apply NIL. }
  intros c0 st1 -> _ _ _. pose proof (Forall_inv_tail B) as B1. cbn [fst snd].
  apply gate_needs; [|intros [->|[C|C]]; [|discriminate|lia]].
  2:{ rewrite !gate_nil. apply NIL. }
  intros t st2 -> _ _ _. pose proof (Forall_inv_tail B1) as B2. cbn [fst snd].
  apply gate_needs; [|intros [->|[C|C]]; [|discriminate|lia]].
  2:{ rewrite !gate_nil. apply NIL. }
  intros c2 st3 -> _ _ _. pose proof (Forall_inv_tail B2) as B3. cbn [fst snd].
  apply gate_needs; [|intros [->|[C|C]]; [|discriminate|lia]].
  2:{ rewrite !gate_nil. apply NIL. }
  intros l v -> _ _ F. pose proof (Forall_inv_tail B3) as B4. cbn [fst snd nth] in *.
  assert (Hl : 0 <= l <= 33).
  { pose proof (Forall_inv B3) as B0. cbv beta in B0. unfold byte_ok in B0. destruct (Z.ltb_spec 33 l); [discriminate|lia]. }
  clear NIL E0 F B B1 B2 B3. change (0 + 1 + 1 + 1 + 1) with 4. unfold set_t0, set_t1.
  cbn [sg_r sg_s sg_t0 sg_t1 sg_t2 sg_index sg_status sg_parsed].
  assert (FIN : forall pos w av, bytes_ok w -> 4 <= pos -> 4 + l - 32 <= pos \/ w = [] -> pos <= 4 + l -> pos + len w = av ->
    needs (6 + l) (let! r := read_loop_o (4 + l) pos (fun a p c => aset a (p - 4 + 32 - l) c) (zeros 32) w in
     let '(r1, pos1, st1) := r in
     let g1 := set_r (mkSig (zeros 32) (zeros 32) t l 0 (sg_index g0) INCOMPLETE 0) r1 in
     if negb (sig_rlen g1 =? sg_t1 g1) then Ok (sig_fail g1, pos1 - 0, st1) else sig_parse_s g1 pos1 st1) av).
  { intros pos w av BW P4 P1 P2 AV.
    assert (E : exists x pos1 rest, read_loop_o (4 + l) pos (fun a p c => aset a (p - 4 + 32 - l) c) (zeros 32) w = Ok (x, pos1, rest)).
    { destruct P1 as [P1| ->]; [|cbn; eauto].
      apply (fill_any (4 + l - 32)); try lia. intros. f_equal. lia. }
    destruct E as (x & pos1 & rest & E). rewrite E. cbn [bind]. cbv zeta.
    match goal with |- context [if ?b then _ else _] => destruct b end.
    - do 3 eexists. split; [reflexivity|]. cbn; congruence.
    - apply read_loop_o_pos in E as (Q1 & Q2 & Q3 & Q4 & Q5).
      assert (BR : bytes_ok rest) by (rewrite Q5 in BW; apply bytes_ok_app in BW; tauto).
      unfold set_r. cbn [sg_r sg_s sg_t0 sg_t1 sg_t2 sg_index sg_status sg_parsed].
      replace av with (pos1 + len rest) by lia. apply parse_s_needs; auto; cbn [sg_t1]; try lia.
      intros N. destruct Q4; [congruence|]. lia. }
  apply gate_needs.
  - intros z w -> Q _ _. apply Z.eqb_eq in Q. cbn [fst snd]. subst l.
    apply FIN; try lia. exact (Forall_inv_tail B4). rewrite !len_cons. lia.
  - intros [->|[C|C]].
    + apply FIN; auto; lia.
    + apply Z.eqb_neq in C. apply FIN; auto; try lia. rewrite !len_cons. lia.
    + lia.
Qed.
Lemma sig_parse_total : forall g0 st, bytes_ok st -> sg_status g0 = DONE -> exists g n rest, sig_parse g0 st = Ok (g, n, rest).
Proof. intros g0 st B ST. destruct (sig_parse_needs g0 st B ST) as (g & n & rest & E & _). eauto. Qed.
Lemma der_sig_bytes : forall x y d, der_sig x y d -> 0 <= x < 2^256 -> 0 <= y < 2^256 -> bytes_ok d.
Proof.
  intros x y d H X Y. destruct (der_sig_of x y d H X Y) as (r & s & L1 & B1 & L2 & B2 & _ & _ & ->).
  destruct (sbody_spec r L1 B1) as (R1 & E1 & (Q1 & _) & _). destruct (sbody_spec s L2 B2) as (R2 & E2 & (Q2 & _) & _).
  unfold der_of. apply bytes_ok_app. split.
  - repeat (apply Forall_cons; [unfold byte_ok; lia|]). constructor.
  - apply bytes_ok_app. split; auto. apply bytes_ok_app. split; auto. repeat (apply Forall_cons; [unfold byte_ok; lia|]). constructor.
Qed.
Lemma nth_firstn_lt : forall (l : list Z) k i, (i < k)%nat -> nth i (firstn k l) 0 = nth i l 0.
Proof.
  induction l as [|x t IH]; intros [|k] [|i] H; cbn [firstn nth]; auto; try lia. apply IH. lia.
Qed.
Lemma der_cut : forall g0 x y d k, sg_status g0 = DONE -> der_sig x y d -> 0 <= x < 2^256 -> 0 <= y < 2^256 ->
  (0 < k)%nat -> Z.of_nat k <= 5 + nth 3 d 0 ->
  failed sg_status (feed sig_parse sg_status g0 [firstn k d; skipn k d]).
Proof.
  intros g0 x y d k ST H X Y K0 K. pose proof (der_sig_bytes x y d H X Y) as B.
  destruct (sig_parse_needs g0 (firstn k d)) as (g & n & rest & E & N); auto.
  { apply bytes_ok_firstn; auto. }
  cbn [feed]. rewrite E. cbn [bind].
  destruct (sg_status g) eqn:SG.
  3:{ do 3 eexists. split; [reflexivity|auto]. }
  all: exfalso; specialize (N ltac:(discriminate)).
  all: assert (LK : len (firstn k d) <= Z.of_nat k) by (unfold len; rewrite firstn_length; lia).
  all: destruct (Nat.le_gt_cases k 3) as [L3|L3].
  all: try (rewrite nth_overflow in N by (rewrite firstn_length; lia); lia).
  all: rewrite nth_firstn_lt in N by lia; lia.
Qed.

Lemma der_cut_both : forall g0 x y d k, sg_status g0 = DONE -> der_sig x y d -> 0 <= x < 2^256 -> 0 <= y < 2^256 ->
  (0 < k)%nat -> Z.of_nat k <= 5 + nth 3 d 0 ->
  failed sg_status (feed sig_parse sg_status g0 [firstn k d; skipn k d]) /\
  exists g, sig_parse g0 d = Ok (g, len d, []) /\ sg_status g = DONE /\ sig_holds g x y.
Proof.
  intros g0 x y d k ST H X Y K0 K. split; [eapply der_cut; eauto|].
  pose proof (der_parses g0 x y d [] ST H X Y) as P. rewrite app_nil_r in P. exact P.
Qed.

(** ** Compact form *)
Lemma skipn_add : forall (l : list Z) a b, skipn a (skipn b l) = skipn (b + a) l.
Proof. induction l as [|x t IH]; intros a [|b]; cbn [skipn Nat.add]; auto. destruct a; auto. Qed.
Lemma write_prefix : forall l arr, (length l <= length arr)%nat -> write_at arr 0 l = Ok (l ++ skipn (length l) arr).
Proof.
  intros l arr L. pose proof (write_at_app l [] (firstn (length l) arr) (skipn (length l) arr)) as W.
  rewrite firstn_length in W. cbn [app] in W. rewrite firstn_skipn in W. rewrite len_nil in W. apply W. lia.
Qed.
Lemma write_mid : forall l arr n, (n + length l <= length arr)%nat ->
  write_at arr (Z.of_nat n) l = Ok (firstn n arr ++ l ++ skipn (n + length l) arr).
Proof.
  intros l arr n L.
  pose proof (write_at_app l (firstn n arr) (firstn (length l) (skipn n arr)) (skipn (n + length l) arr)) as W.
  replace (firstn n arr ++ firstn (length l) (skipn n arr) ++ skipn (n + length l) arr) with arr in W.
  2:{ rewrite app_assoc. replace (skipn (n + length l) arr) with (skipn (length l) (skipn n arr)).
      - rewrite <- app_assoc, firstn_skipn. symmetry. apply firstn_skipn.
      - rewrite skipn_add. reflexivity. }
  assert (E : len (firstn n arr) = Z.of_nat n) by (unfold len; rewrite firstn_length; lia). rewrite E in W. apply W. rewrite firstn_length, skipn_length. lia.
Qed.

Lemma sig_bin_spec : forall g arr, length (sg_r g) = 32%nat -> length (sg_s g) = 32%nat ->
  sig_bin g arr = Ok (firstn (length arr) (sg_r g ++ sg_s g ++ [sg_index g]) ++ skipn 65 arr).
Proof.
  intros g arr LR LS. unfold sig_bin.
  set (a := sg_r g) in *. set (b := sg_s g) in *. set (i := sg_index g). clearbody a b i.
  assert (LA : len arr = Z.of_nat (length arr)) by reflexivity. rewrite LA.
  destruct (Z.ltb_spec 32 (Z.of_nat (length arr))) as [G1|G1].
  - replace (Z.to_nat (Z.min (Z.of_nat (length arr)) 32)) with 32%nat by lia.
    rewrite (firstn_all2 a) by lia. rewrite write_prefix by lia. cbn [bind]. rewrite LR.
    destruct (Z.ltb_spec 64 (Z.of_nat (length arr))) as [G2|G2].
    + replace (Z.to_nat (Z.min (Z.of_nat (length arr) - 32) 32)) with 32%nat by lia.
      rewrite (firstn_all2 b) by lia. change 32 with (Z.of_nat 32) at 1.
      rewrite write_mid by (rewrite app_length, skipn_length; lia). cbn [bind]. rewrite LS.
      rewrite firstn_app_len by auto. change (32 + 32)%nat with 64%nat.
      assert (SK : skipn 64 (a ++ skipn 32 arr) = skipn 64 arr).
      { rewrite skipn_app, (skipn_all2 a) by lia. rewrite LR. cbn [app]. rewrite skipn_add. reflexivity. }
      rewrite SK. rewrite firstn_all2 by (rewrite !app_length; cbn [length]; lia).
      rewrite (skipn_nth arr 64) by lia. unfold aset.
      replace ((0 <=? 64) && _) with true.
      2:{ symmetry. apply andb_true_intro. split; [reflexivity|]. apply Z.ltb_lt. unfold len. rewrite !app_length. cbn [length]. rewrite skipn_length. lia. }
      f_equal. rewrite app_assoc.
      replace (Z.to_nat 64) with (length (a ++ b)) by (rewrite app_length; lia).
      rewrite set_nth_app_mid. rewrite <- !app_assoc. reflexivity.
    + replace (Z.to_nat (Z.min (Z.of_nat (length arr) - 32) 32)) with (length arr - 32)%nat by lia.
      assert (LF : length (firstn (length arr - 32) b) = (length arr - 32)%nat) by (rewrite firstn_length; lia).
      change 32 with (Z.of_nat 32) at 1.
      rewrite write_mid by (rewrite app_length, skipn_length, LF; lia). cbn [bind].
      rewrite firstn_app_len by auto. rewrite LF.
      rewrite (skipn_all2 (a ++ skipn 32 arr)) by (rewrite app_length, skipn_length; lia).
      rewrite (skipn_all2 arr) by lia. rewrite !app_nil_r.
      rewrite firstn_app, (firstn_all2 a) by lia. rewrite LR. rewrite firstn_app. rewrite LS.
      replace (length arr - 32 - 32)%nat with 0%nat by lia. cbn [firstn]. rewrite app_nil_r. reflexivity.
  - replace (Z.to_nat (Z.min (Z.of_nat (length arr)) 32)) with (length arr) by lia.
    rewrite write_prefix by (rewrite firstn_length; lia). cbn [bind].
    destruct (Z.ltb_spec 64 (Z.of_nat (length arr))); [lia|].
    rewrite firstn_length, Nat.min_l by lia. rewrite !skipn_all2 by lia. rewrite !app_nil_r.
    rewrite firstn_app. replace (length arr - length a)%nat with 0%nat by lia. cbn [firstn]. rewrite app_nil_r. reflexivity.
Qed.

Lemma sig_fromBin_spec : forall g arr, length (sg_r g) = 32%nat -> length (sg_s g) = 32%nat ->
  exists g', sig_fromBin g arr = Ok g' /\ length (sg_r g') = 32%nat /\ length (sg_s g') = 32%nat /\
    sg_r g' ++ sg_s g' ++ [sg_index g'] = firstn 65 arr ++ skipn (length arr) (sg_r g ++ sg_s g ++ [sg_index g]).
Proof.
  intros g arr LR LS. unfold sig_fromBin.
  assert (LA : len arr = Z.of_nat (length arr)) by reflexivity. rewrite LA.
  destruct (Z.ltb_spec 32 (Z.of_nat (length arr))) as [G1|G1].
  - replace (Z.to_nat (Z.min (Z.of_nat (length arr)) 32)) with 32%nat by lia.
    rewrite write_prefix by (rewrite firstn_length; lia). cbn [bind]. rewrite firstn_length, Nat.min_l by lia.
    rewrite (skipn_all2 (sg_r g)) by lia. rewrite app_nil_r.
    destruct (Z.ltb_spec 64 (Z.of_nat (length arr))) as [G2|G2].
    + replace (Z.to_nat (Z.min (Z.of_nat (length arr) - 32) 32)) with 32%nat by lia.
      rewrite write_prefix by (rewrite firstn_length, skipn_length; lia). cbn [bind].
      rewrite firstn_length, skipn_length, Nat.min_l by lia. rewrite (skipn_all2 (sg_s g)) by lia. rewrite app_nil_r.
      rewrite aget_ok by (unfold len; lia). cbn [bind].
      eexists. split; [reflexivity|]. cbn [sg_r sg_s sg_index].
      split; [rewrite firstn_length; lia|]. split; [rewrite firstn_length, skipn_length; lia|].
      rewrite (skipn_all2 (sg_r g ++ sg_s g ++ [sg_index g])) by (rewrite !app_length; cbn [length]; lia). rewrite app_nil_r.
      rewrite <- (firstn_skipn 32 arr) at 4. rewrite firstn_app. rewrite firstn_firstn.
      rewrite firstn_length. replace (Nat.min 65 32) with 32%nat by reflexivity.
      rewrite Nat.min_l by lia. f_equal.
      rewrite <- (firstn_skipn 32 (skipn 32 arr)) at 2. rewrite firstn_app, firstn_firstn.
      replace (length (firstn 32 (skipn 32 arr))) with 32%nat by (rewrite firstn_length, skipn_length; lia).
      change (65 - 32 - 32)%nat with 1%nat. change (Nat.min (65 - 32) 32) with 32%nat. f_equal. rewrite skipn_add. change (32 + 32)%nat with 64%nat.
      rewrite (skipn_nth arr 64) by lia. reflexivity.
    + replace (Z.to_nat (Z.min (Z.of_nat (length arr) - 32) 32)) with (length arr - 32)%nat by lia.
      assert (FS : firstn (length arr - 32) (skipn 32 arr) = skipn 32 arr) by (apply firstn_all2; rewrite skipn_length; lia).
      rewrite FS. rewrite write_prefix by (rewrite skipn_length; lia). cbn [bind]. rewrite skipn_length.
      eexists. split; [reflexivity|]. cbn [sg_r sg_s sg_index].
      split; [rewrite firstn_length; lia|]. split; [rewrite app_length, !skipn_length; lia|].
      rewrite (firstn_all2 (n := 65)) by lia. rewrite skipn_app, (skipn_all2 (sg_r g)) by lia. rewrite LR. cbn [app].
      rewrite skipn_app. rewrite LS. replace (length arr - 32 - 32)%nat with 0%nat by lia. cbn [skipn].
      rewrite <- app_assoc, app_assoc, firstn_skipn. reflexivity.
  - replace (Z.to_nat (Z.min (Z.of_nat (length arr)) 32)) with (length arr) by lia. rewrite firstn_all.
    rewrite write_prefix by lia. cbn [bind]. destruct (Z.ltb_spec 64 (Z.of_nat (length arr))); [lia|]. cbn [bind].
    eexists. split; [reflexivity|]. cbn [sg_r sg_s sg_index].
    split; [rewrite app_length, skipn_length; lia|]. split; auto.
    rewrite (firstn_all2 (n := 65)) by lia. rewrite skipn_app. replace (length arr - length (sg_r g))%nat with 0%nat by lia.
    cbn [skipn]. rewrite <- !app_assoc. reflexivity.
Qed.

Lemma compact_there : forall g h, length (sg_r g) = 32%nat -> length (sg_s g) = 32%nat ->
  length (sg_r h) = 32%nat -> length (sg_s h) = 32%nat ->
  exists arr h', sig_bin g (zeros 65) = Ok arr /\ sig_fromBin h arr = Ok h' /\
    sg_r h' = sg_r g /\ sg_s h' = sg_s g /\ sg_index h' = sg_index g.
Proof.
  intros g h L1 L2 L3 L4. pose proof (sig_bin_spec g (zeros 65) L1 L2) as E.
  change (length (zeros 65)) with 65%nat in E. rewrite firstn_all2 in E by (rewrite !app_length; cbn [length]; lia).
  rewrite (skipn_all2 (zeros 65)) in E by (cbn; lia). rewrite app_nil_r in E.
  destruct (sig_fromBin_spec h (sg_r g ++ sg_s g ++ [sg_index g]) L3 L4) as (h' & F & A & B & C).
  eexists _, h'. split; [exact E|]. split; [exact F|].
  rewrite firstn_all2 in C by (rewrite !app_length; cbn [length]; lia).
  rewrite skipn_all2 in C by (rewrite !app_length; cbn [length]; lia). rewrite app_nil_r in C.
  assert (X := f_equal (firstn 32) C). rewrite !firstn_app_len in X by auto.
  assert (Y := f_equal (skipn 32) C). rewrite !skipn_app_len in Y by auto.
  assert (X2 := f_equal (firstn 32) Y). rewrite !firstn_app_len in X2 by auto.
  assert (Y2 := f_equal (skipn 32) Y). rewrite !skipn_app_len in Y2 by auto. injection Y2 as Y2. auto.
Qed.
Lemma compact_back : forall g arr, length (sg_r g) = 32%nat -> length (sg_s g) = 32%nat -> length arr = 65%nat ->
  exists g', sig_fromBin g arr = Ok g' /\ sig_bin g' (zeros 65) = Ok arr.
Proof.
  intros g arr L1 L2 L. destruct (sig_fromBin_spec g arr L1 L2) as (h' & F & A & B & C).
  exists h'. split; auto. rewrite sig_bin_spec by auto. rewrite C. change (length (zeros 65)) with 65%nat.
  rewrite (skipn_all2 (zeros 65)) by (cbn; lia). rewrite app_nil_r.
  rewrite skipn_all2 by (rewrite !app_length; cbn [length]; lia). rewrite app_nil_r, firstn_firstn, Nat.min_id, firstn_all2 by lia. auto.
Qed.

(** ** Schnorr *)
Definition sch_ok (g : schnorr) : Prop := sn_status g = INCOMPLETE ->
  length (sn_r g) = 32%nat /\ length (sn_s g) = 32%nat /\ 0 <= sn_parsed g < 64.
Lemma fill_len : forall limit base f s pos a a1 pos1 r, (forall a p c, f a p c = aset a (p - base) c) ->
  read_loop_o limit pos f a s = Ok (a1, pos1, r) -> length a1 = length a.
Proof.
  intros limit base f s. induction s as [|c t IH]; intros pos a a1 pos1 r F H; cbn [read_loop_o] in H.
  - injection H as <- _ _. auto.
  - destruct (pos <? limit); [|injection H as <- _ _; auto].
    rewrite F in H. unfold aset in H. destruct (_ && _); cbn [bind] in H; [|discriminate].
    apply IH in H; auto. rewrite H. apply set_nth_length.
Qed.
Lemma sch_body_two : forall g a b, 0 <= sn_parsed g < 64 ->
  sch_parse_body g (a ++ b) =
  (let! x := sch_parse_body g a in
   let '(g1, n1, r1) := x in
   match sn_status g1 with
   | INCOMPLETE => let! y := sch_parse_body g1 b in let '(g2, n2, r2) := y in Ok (g2, n1 + n2, r2)
   | _ => Ok (g1, n1, r1 ++ b)
   end).
Proof.
  intros g a b P. unfold sch_parse_body. rewrite read_loop_o_app.
  destruct (read_loop_o 32 (sn_parsed g) _ (sn_r g) a) as [[[r1 pos1] t1]|] eqn:E1; cbn [bind]; [|reflexivity].
  apply read_loop_o_pos in E1 as (Q1 & Q2 & Q3 & Q4 & _).
  destruct t1 as [|c t1].
  - cbn [read_loop_o bind]. destruct (Z.eqb_spec pos1 64) as [E|E]; [lia|]. cbn [sn_status sn_parsed sn_r sn_s].
    destruct (read_loop_o 32 pos1 _ r1 b) as [[[r2 pos2] t2]|]; cbn [bind]; [|reflexivity].
    destruct (read_loop_o 64 pos2 _ (sn_s g) t2) as [[[s2 pos3] t3]|]; cbn [bind]; [|reflexivity].
    do 2 f_equal. f_equal. lia.
  - destruct Q4 as [Q4|Q4]; [discriminate|]. cbn [bind].
    rewrite read_loop_o_app.
    destruct (read_loop_o 64 pos1 _ (sn_s g) (c :: t1)) as [[[s1 pos2] t2]|] eqn:E2; cbn [bind]; [|reflexivity].
    apply read_loop_o_pos in E2 as (U1 & U2 & U3 & U4 & _).
    destruct (Z.eqb_spec pos2 64) as [E|E].
    + subst pos2. cbn [sn_status]. destruct t2 as [|d t2].
      * rewrite read_loop_o_stop by lia. cbn [bind app]. reflexivity.
      * cbn [bind]. reflexivity.
    + cbn [sn_status sn_parsed sn_r sn_s]. destruct t2 as [|d t2]; [|destruct U4; [discriminate|lia]].
      rewrite (read_loop_o_stop 32) by lia. cbn [bind].
      destruct (read_loop_o 64 pos2 _ s1 b) as [[[s3 pos3] t3]|]; cbn [bind]; [|reflexivity].
      do 2 f_equal. f_equal. lia.
Qed.
Lemma sch_two : forall g a b, sch_ok g -> a <> [] -> b <> [] -> bytes_ok a -> bytes_ok b ->
  sch_parse g (a ++ b) <> UB -> same_result sn_status (sch_parse g (a ++ b)) (chain sch_parse sn_status (sch_parse g a) b).
Proof.
  intros g a b OK _ _ _ _ D. left. unfold chain, sch_parse in *.
  assert (K : forall h, 0 <= sn_parsed h < 64 -> sch_parse_body h (a ++ b) = (let! x := sch_parse_body h a in
     let '(g1, n1, r1) := x in
     match sn_status g1 with
     | INCOMPLETE => let! y := sch_parse g1 b in let '(g2, n2, r2) := y in Ok (g2, n1 + n2, r2)
     | _ => Ok (g1, n1, r1 ++ b) end)).
  { intros h P. rewrite sch_body_two by auto. destruct (sch_parse_body h a) as [[[g1 n1] r1]|]; cbn [bind]; auto.
    destruct (sn_status g1) eqn:E; auto. unfold sch_parse. rewrite E. reflexivity. }
  destruct (sn_status g) eqn:SG.
  - apply K. cbn; lia.
  - apply K. destruct (OK SG) as (_ & _ & P). auto.
  - cbn [bind]. rewrite SG. reflexivity.
Qed.
Lemma sch_inc : forall g a g1 n1 r1, sch_ok g -> a <> [] -> bytes_ok a -> sch_parse g a = Ok (g1, n1, r1) ->
  sn_status g1 = INCOMPLETE -> r1 = [] /\ sch_ok g1.
Proof.
  intros g a g1 n1 r1 OK _ _ H I.
  assert (K : forall h, length (sn_r h) = 32%nat -> length (sn_s h) = 32%nat -> 0 <= sn_parsed h < 64 ->
    sch_parse_body h a = Ok (g1, n1, r1) -> r1 = [] /\ sch_ok g1).
  { intros h LR LS P E. unfold sch_parse_body in E.
    destruct (read_loop_o 32 (sn_parsed h) _ (sn_r h) a) as [[[r2 pos1] t1]|] eqn:E1; cbn [bind] in E; [|discriminate].
    assert (L1 : length r2 = length (sn_r h)) by (eapply (fill_len 32 0); [|exact E1]; intros; rewrite Z.sub_0_r; auto).
    apply read_loop_o_pos in E1 as (Q1 & Q2 & Q3 & Q4 & _).
    destruct (read_loop_o 64 pos1 _ (sn_s h) t1) as [[[s2 pos2] t2]|] eqn:E2; cbn [bind] in E; [|discriminate].
    assert (L2 : length s2 = length (sn_s h)) by (eapply (fill_len 64 32); [|exact E2]; auto).
    apply read_loop_o_pos in E2 as (U1 & U2 & U3 & U4 & _).
    injection E as <- <- <-. cbn [sn_status] in I. destruct (Z.eqb_spec pos2 64); [discriminate|].
    split.
    - destruct U4; auto. lia.
    - intros _. cbn [sn_r sn_s sn_parsed]. repeat split; try congruence; lia. }
  unfold sch_parse in H. destruct (sn_status g) eqn:SG.
  - apply K in H; auto. cbn; lia.
  - destruct (OK SG) as (A & B & C). apply (K g); auto.
  - injection H as <- _ _. congruence.
Qed.
Lemma sch_chunks : forall g, sn_status g <> INCOMPLETE -> chunk_invariant sch_parse sn_status g.
Proof.
  intros g H chunks NE F D. eapply (feed_same sch_parse sn_status sch_ok); eauto using sch_two, sch_inc.
  intros X. congruence.
Qed.
Lemma sch_parses : forall g r s rest, sn_status g = DONE -> length r = 32%nat -> length s = 32%nat ->
  sch_parse g (r ++ s ++ rest) = Ok (mkSch r s DONE 64, 64, rest).
Proof.
  intros g r s rest ST LR LS. unfold sch_parse. rewrite ST. unfold sch_parse_body. cbn [sn_r sn_s sn_parsed].
  change (zeros 32) with ([] ++ zeros 32) at 1.
  rewrite (fill_loop 0 32) by (intros; rewrite ?Z.sub_0_r; auto; rewrite ?len_nil, ?len_zeros; lia).
  replace (Nat.min _ _) with (length r) by (rewrite !app_length; lia).
  rewrite firstn_app_len, skipn_app_len by auto. rewrite (skipn_all2 (zeros 32)) by (cbn; lia).
  cbn [app bind]. rewrite app_nil_r.
  change (zeros 32) with ([] ++ zeros 32). rewrite LR. change (0 + Z.of_nat 32) with 32.
  rewrite (fill_loop 32 64) by (intros; auto; rewrite ?len_nil, ?len_zeros; lia).
  replace (Nat.min _ _) with (length s) by (rewrite !app_length; lia).
  rewrite firstn_app_len, skipn_app_len by auto. rewrite (skipn_all2 (zeros 32)) by (cbn; lia).
  cbn [app bind]. rewrite app_nil_r, LS. change (32 + Z.of_nat 32) with 64. reflexivity.
Qed.
Lemma sch_slices : forall g, length (sn_r g) = 32%nat -> length (sn_s g) = 32%nat ->
  gives_slices (sch_to_stream g) (sn_r g ++ sn_s g).
Proof.
  intros g LR LS. apply serializes_slices.
  apply (writes_serializes _ (write_loop 64 0 64 (sn_r g ++ sn_s g))); [|reflexivity].
  apply writes_loop_all; [unfold len; rewrite app_length; lia|rewrite app_length; lia].
Qed.
