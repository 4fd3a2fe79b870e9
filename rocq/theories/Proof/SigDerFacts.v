(** Facts about ecdsa_sig_to_der. *)
From Coq Require Import Lia.
From Verif Require Import Base.Bytes Base.BytesFacts Model.Signature Model.SigDer Spec.Signature.
Open Scope Z_scope.

Lemma skip_run : forall k fuel pre b t limit, b <> 0 -> (k <= fuel)%nat -> len pre + Z.of_nat k < limit ->
  skip_zeros fuel (pre ++ zeros k ++ b :: t) (len pre) limit = Ok (len pre + Z.of_nat k).
Proof.
  induction k as [|k IH]; intros fuel pre b t limit NZ F L.
  - cbn [zeros repeat app]. destruct fuel; cbn [skip_zeros]; rewrite aget_mid; cbn [bind]; destruct (Z.eqb_spec b 0); try contradiction; cbn [andb]; f_equal; lia.
  - destruct fuel as [|fuel]; [lia|]. change (zeros (S k)) with (0 :: zeros k). cbn [skip_zeros app]. rewrite aget_mid. cbn [bind]. rewrite Z.eqb_refl.
    destruct (Z.ltb_spec (len pre) limit); [|lia]. cbn [andb].
    replace (pre ++ 0 :: zeros k ++ b :: t) with ((pre ++ [0]) ++ zeros k ++ b :: t) by (rewrite <- app_assoc; reflexivity).
    replace (len pre + 1) with (len (pre ++ [0])) by (rewrite len_app; reflexivity).
    rewrite IH; [|assumption|lia|rewrite len_app; change (len [0]) with 1; lia]. f_equal. rewrite len_app. change (len [0]) with 1. lia.
Qed.
(** All 32 bytes zero: the byte behind them is read. *)
Lemma skip_all : forall k fuel pre t, (k <= fuel)%nat ->
  skip_zeros fuel (pre ++ zeros k ++ t) (len pre) (len pre + Z.of_nat k) = let! _ := aget (pre ++ zeros k ++ t) (len pre + Z.of_nat k) in Ok (len pre + Z.of_nat k).
Proof.
  induction k as [|k IH]; intros fuel pre t F.
  - rewrite Z.add_0_r. cbn [zeros repeat app]. destruct fuel; cbn [skip_zeros]; rewrite Z.ltb_irrefl; destruct (aget _ _); cbn [bind]; rewrite ?Bool.andb_false_r; reflexivity.
  - destruct fuel as [|fuel]; [lia|]. change (zeros (S k)) with (0 :: zeros k). cbn [skip_zeros app]. rewrite aget_mid. cbn [bind]. rewrite Z.eqb_refl.
    destruct (Z.ltb_spec (len pre) (len pre + Z.of_nat (S k))); [|lia]. cbn [andb].
    replace (pre ++ 0 :: zeros k ++ t) with ((pre ++ [0]) ++ zeros k ++ t) by (rewrite <- app_assoc; reflexivity).
    replace (len pre + Z.of_nat (S k)) with (len (pre ++ [0]) + Z.of_nat k) by (rewrite len_app; change (len [0]) with 1; lia).
    replace (len pre + 1) with (len (pre ++ [0])) by (rewrite len_app; reflexivity).
    apply IH. lia.
Qed.
Lemma lead : forall l, bytes_ok l -> 1 <= be_val 256 l -> exists k b t, l = zeros k ++ b :: t /\ b <> 0.
Proof.
  induction l as [|c l IH]; intros B V; [cbn in V; lia|]. apply Forall_cons_iff in B as [B1 B2]. destruct (Z.eq_dec c 0) as [->|N].
  - rewrite be_val_cons in V. destruct (IH B2 ltac:(lia)) as (k & b & t & -> & H). exists (S k), b, t. split; [reflexivity|assumption].
  - exists 0%nat, c, l. split; [reflexivity|assumption].
Qed.
Lemma der_int_ok : forall pre l post x, length l = 32%nat -> bytes_ok l -> be_val 256 l = x -> 1 <= x ->
  exists a, der_int (pre ++ l ++ post) (len pre) (len pre + 32) = Ok a /\ der_integer x a /\ 1 <= len a <= 33.
Proof.
  intros pre l post x L B V X. destruct (lead l B ltac:(lia)) as (k & b & t & -> & N). unfold zeros in L; rewrite app_length, repeat_length in L; cbn [length] in L; fold (zeros k) in *.
  unfold der_int. rewrite <- app_assoc. cbn [app]. rewrite skip_run; [|assumption|lia|lia]. cbn [bind].
  rewrite (app_assoc pre). replace (len pre + Z.of_nat k) with (len (pre ++ zeros k)) by (rewrite len_app; unfold len, zeros; rewrite repeat_length; lia).
  rewrite aget_mid. cbn [bind]. eexists. split; [reflexivity|].
  replace (Z.to_nat (len (pre ++ zeros k))) with (length (pre ++ zeros k)) by (unfold len; lia). rewrite skipn_app, skipn_all, Nat.sub_diag. cbn [skipn app].
  replace (Z.to_nat (len pre + 32 - len (pre ++ zeros k))) with (S (length t)) by (rewrite len_app; unfold len, zeros; rewrite repeat_length; lia).
  change (b :: t ++ post) with ((b :: t) ++ post). rewrite firstn_app. change (S (length t)) with (length (b :: t)). rewrite firstn_all, Nat.sub_diag, firstn_O, app_nil_r.
  apply bytes_ok_app in B as [_ B]. assert (B' := B). apply Forall_cons_iff in B' as [B1 B2]. unfold byte_ok in B1.
  rewrite be_val_zeros in V. destruct (Z.leb_spec 128 b).
  - split; [|unfold len; cbn [app length]; lia]. split; [constructor; [split; lia|assumption]|]. split; [discriminate|]. split; [cbn; lia|]. split; [|cbn; lia].
    cbn [app]. rewrite be_val_cons, V. lia.
  - split; [|unfold len; cbn [app length]; lia]. cbn [app]. split; [assumption|]. split; [discriminate|]. split; [cbn; lia|]. split; [assumption|].
    destruct b; [contradiction|exact I|exact I].
Qed.
Lemma sig_to_der_ok : forall rb sb post der x y, length rb = 32%nat -> length sb = 32%nat -> bytes_ok rb -> bytes_ok sb -> be_val 256 rb = x -> be_val 256 sb = y ->
  1 <= x -> 1 <= y -> 72 <= len der ->
  exists d, der_sig x y d /\ 8 <= len d <= 72 /\ ecdsa_sig_to_der (rb ++ sb ++ post) der = Ok (len d, d ++ skipn (length d) der).
Proof.
  intros rb sb post der x y Lr Ls Br Bs Vx Vy X Y L.
  destruct (der_int_ok [] rb (sb ++ post) x Lr Br Vx X) as (a & Ea & Da & La).
  destruct (der_int_ok rb sb post y Ls Bs Vy Y) as (b & Eb & Db & Lb).
  cbn [app] in Ea. change (len []) with 0 in Ea. rewrite Z.add_0_l in Ea. replace (len rb) with 32 in Eb by (unfold len; lia). change (32 + 32) with 64 in Eb.
  unfold ecdsa_sig_to_der. rewrite Ea, Eb. cbn [bind].
  assert (Ua : u8 (len a) = len a) by (unfold u8; apply Z.mod_small; lia). assert (Ub : u8 (len b) = len b) by (unfold u8; apply Z.mod_small; lia).
  rewrite Ua, Ub. assert (Ul : u8 (len a + len b + 4) = 4 + len a + len b) by (unfold u8; rewrite Z.mod_small; lia). rewrite Ul.
  set (d := [48; 4 + len a + len b; 2; len a] ++ a ++ [2; len b] ++ b).
  assert (Ld : len d = 6 + len a + len b) by (unfold d, len; rewrite !app_length; cbn [length]; lia).
  exists d. split; [exists a, b; auto|]. split; [lia|]. destruct (Z.ltb_spec (len der) (len d)); [lia|]. do 2 f_equal. lia.
Qed.
Lemma skip_above : forall fuel sig i limit n, 0 <= i <= limit -> skip_zeros fuel sig i limit = Ok n -> i <= n <= limit.
Proof.
  induction fuel as [|f IH]; intros sig i limit n R E; cbn [skip_zeros] in E; destruct (aget sig i); cbn [bind] in E; try discriminate; destruct (_ && _) eqn:C; try discriminate.
  - injection E as <-. lia.
  - apply andb_true_iff in C as [_ C]. apply Z.ltb_lt in C. apply IH in E; lia.
  - injection E as <-. lia.
Qed.
Lemma zero_s : forall rb der, length rb = 32%nat -> ecdsa_sig_to_der (rb ++ zeros 32) der = UB.
Proof.
  intros rb der L. unfold ecdsa_sig_to_der. destruct (der_int (rb ++ zeros 32) 0 32) as [a|]; cbn [bind]; [|reflexivity].
  unfold der_int. assert (E := skip_all 32 33 rb [] ltac:(lia)). rewrite app_nil_r in E. replace (len rb) with 32 in E by (unfold len; lia).
  change (32 + Z.of_nat 32) with 64 in E. rewrite E. unfold aget. assert (Lz : len (rb ++ zeros 32) = 64) by (unfold len, zeros; rewrite app_length, L; reflexivity). rewrite Lz. reflexivity.
Qed.
Lemma zero_r : forall sb post der y, length sb = 32%nat -> bytes_ok sb -> be_val 256 sb = y -> 1 <= y < 2 ^ 255 -> 72 <= len der ->
  exists d, ecdsa_sig_to_der (zeros 32 ++ sb ++ post) der = Ok (len d, d ++ skipn (length d) der) /\ forall x y' rest, ~ der_sig x y' (d ++ rest).
Proof.
  intros sb post der y Ls Bs Vy Y L. destruct (der_int_ok (zeros 32) sb post y Ls Bs Vy ltac:(lia)) as (b & Eb & Db & Lb). change (len (zeros 32)) with 32 in Eb. change (32 + 32) with 64 in Eb.
  assert (Ea : der_int (zeros 32 ++ sb ++ post) 0 32 = Ok []).
  { destruct sb as [|c sb]; [discriminate|]. apply Forall_cons_iff in Bs as [B1 B2]. unfold byte_ok in B1. cbn [length] in Ls.
    assert (C : c < 128). { rewrite be_val_cons in Vy. assert (V := be_val_bound 256 sb ltac:(lia) B2). replace (len sb) with 31 in * by (unfold len; lia). change (2 ^ 255) with (128 * 256 ^ 31) in Y. assert (0 < 256 ^ 31) by reflexivity. clear - Vy V Y H. nia. }
    assert (E := skip_all 32 33 [] ((c :: sb) ++ post) ltac:(lia)). cbn [app] in E. change (len []) with 0 in E. change (0 + Z.of_nat 32) with (len (zeros 32)) in E.
    rewrite aget_mid in E. cbn [bind] in E. change (len (zeros 32)) with 32 in E. unfold der_int. cbn [app]. rewrite E. cbn [bind].
    change 32 with (len (zeros 32)) at 1. rewrite aget_mid. cbn [bind]. destruct (Z.leb_spec 128 c); [lia|]. reflexivity. }
  unfold ecdsa_sig_to_der. rewrite Ea, Eb. cbn [bind]. change (u8 (len [])) with 0. assert (Ub : u8 (len b) = len b) by (unfold u8; apply Z.mod_small; lia). rewrite Ub.
  assert (Ul : u8 (0 + len b + 4) = 4 + len b) by (unfold u8; rewrite Z.mod_small; lia). rewrite Ul. cbn [app].
  set (d := 48 :: 4 + len b :: 2 :: 0 :: 2 :: len b :: b). assert (Ld : len d = 6 + len b) by (unfold d, len; cbn [length]; lia). exists d. split.
  - destruct (Z.ltb_spec (len der) (len d)); [lia|]. do 2 f_equal. lia.
  - intros x y' rest (a & b' & (_ & N & _) & _ & E). apply (f_equal (fun l => nth 3 l 0)) in E. cbn [nth app] in E. unfold d in E. cbn [nth app] in E. destruct a; [apply N; reflexivity|]. rewrite len_cons in E. assert (P := len_nonneg Z a). lia.
Qed.
From Verif Require Import Proof.SigFacts Proof.SigProps.
Lemma der_sig_unique : forall x y a b, der_sig x y a -> der_sig x y b -> a = b.
Proof. intros x y a b (p & q & Hp & Hq & ->) (p' & q' & Hp' & Hq' & ->). rewrite (der_integer_unique _ _ _ Hp Hp'), (der_integer_unique _ _ _ Hq Hq'). reflexivity. Qed.
Lemma object_same : forall g x y der, sig_holds g x y -> 1 <= x -> 1 <= y -> 72 <= len der ->
  exists n a b, sig_der g 72 = Ok (n, a) /\ ecdsa_sig_to_der (sg_r g ++ sg_s g) der = Ok (n, b) /\ firstn (Z.to_nat n) a = firstn (Z.to_nat n) b.
Proof.
  intros g x y der G X Y L. destruct (der_writes g x y G) as (d & D & Ld & _ & W & _). destruct G as (L1 & B1 & V1 & L2 & B2 & V2).
  destruct (sig_to_der_ok (sg_r g) (sg_s g) [] der x y L1 L2 B1 B2 V1 V2 X Y L) as (d' & D' & _ & E). rewrite app_nil_r in E. rewrite (der_sig_unique _ _ _ _ D' D) in E.
  assert (W72 := W 72%nat ltac:(unfold len in Ld; lia)). exists (len d), (d ++ zeros (72 - length d)), (d ++ skipn (length d) der). split; [exact W72|]. split; [exact E|].
  replace (Z.to_nat (len d)) with (length d) by (unfold len; lia). rewrite !firstn_app, !firstn_all, Nat.sub_diag, !firstn_O. reflexivity.
Qed.
