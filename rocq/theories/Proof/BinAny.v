(** fromBin on binary text of any length up to 2048 digits. *)
From Coq Require Import Lia.
From Verif Require Import Base.Bytes Base.BytesFacts Model.Conversion Spec.Codecs Proof.IntVarint Proof.HexBin.
Open Scope Z_scope.

Definition bit (d : Z) : Prop := d = 0 \/ d = 1.
Lemma bits_digits : forall l, Forall bit l -> digits_ok 2 l.
Proof. intros l H. unfold digits_ok. eapply Forall_impl; [|exact H]. intros a [-> | ->]; lia. Qed.
Lemma byte_bits : forall a b c d e f g h, bit a -> bit b -> bit c -> bit d -> bit e -> bit f -> bit g -> bit h ->
  byte_ok (be_val 2 [a; b; c; d; e; f; g; h]) /\
  map (fun k => 48 + (be_val 2 [a; b; c; d; e; f; g; h] / 2^k) mod 2) [7; 6; 5; 4; 3; 2; 1; 0] = map (fun x => 48 + x) [a; b; c; d; e; f; g; h].
Proof.
  intros a b c d e f g h [-> | ->] [-> | ->] [-> | ->] [-> | ->] [-> | ->] [-> | ->] [-> | ->] [-> | ->];
    (split; [unfold byte_ok; split; [discriminate|reflexivity]|reflexivity]).
Qed.
Lemma bits_bytes : forall n l, Forall bit l -> length l = (8 * n)%nat ->
  exists bs, bytes_ok bs /\ length bs = n /\ be_val 256 bs = be_val 2 l /\ bin_string bs = map (fun x => 48 + x) l.
Proof.
  induction n as [|n IH]; intros l H L.
  - destruct l; [|discriminate]. exists []. repeat split. constructor.
  - replace (8 * S n)%nat with (8 + 8 * n)%nat in L by lia.
    do 8 (destruct l as [|? l]; [discriminate|]). cbn [length Nat.add] in L. injection L as L.
    repeat match goal with H : Forall bit (_ :: _) |- _ => apply Forall_inv in H as ?; apply Forall_inv_tail in H end.
    destruct (IH l H L) as (bs & B & LB & V & S).
    match goal with |- context [be_val 2 (?a :: ?b :: ?c :: ?d :: ?e :: ?f :: ?g :: ?h :: l)] =>
      destruct (byte_bits a b c d e f g h) as (X & Y); auto;
      exists (be_val 2 [a; b; c; d; e; f; g; h] :: bs);
      change (a :: b :: c :: d :: e :: f :: g :: h :: l) with ([a; b; c; d; e; f; g; h] ++ l) end.
    split; [constructor; auto|]. split; [cbn [length]; now rewrite LB|]. split.
    + rewrite be_val_cons, be_val_app, V. f_equal. f_equal. unfold len. rewrite LB. replace (length l) with (8 * n)%nat by lia.
      rewrite Nat2Z.inj_mul. change 256 with (2^8). rewrite <- Z.pow_mul_r by lia. reflexivity.
    + unfold bin_string in *. cbn [flat_map]. rewrite Y, S, map_app. reflexivity.
Qed.
Lemma loop_pad : forall l k i ln arr, Forall (fun c => c = 48 \/ c = 49) l ->
  fromBin_loop (l ++ repeat 48 k) i ln arr = fromBin_loop l i ln arr.
Proof.
  induction l as [|c l IH]; intros k i ln arr H.
  - cbn [app]. revert i. induction k; intros i; [reflexivity|]. cbn [repeat fromBin_loop]. change (48 =? 49) with false. change (48 =? 48) with true. cbv iota. rewrite IHk. reflexivity.
  - inversion H; subst. cbn [app fromBin_loop]. destruct H2 as [-> | ->].
    + change (48 =? 49) with false. change (48 =? 48) with true. cbv iota. apply IH; auto.
    + change (49 =? 49) with true. cbv iota. destruct (aget _ _); cbn [bind]; auto. destruct (aset _ _ _); cbn [bind]; auto.
Qed.
Lemma fromBin_any : forall l arr, Forall bit l -> len l <= 2048 -> len l <= 8 * len arr ->
  let n := (len l + 7) / 8 in
  fromBin (map (fun x => 48 + x) l) arr =
  Ok (n, be_bytes (Z.to_nat n) (be_val 2 l) ++ zeros (length arr - Z.to_nat n)).
Proof.
  intros l arr H L A n. pose proof (len_nonneg _ l).
  set (k := Z.to_nat (8 * n - len l)). assert (N : 0 <= n <= 256) by (unfold n; dlia). assert (NA : n <= len arr) by (unfold n; dlia).
  assert (K : 0 <= 8 * n - len l < 8) by (unfold n; dlia).
  assert (HP : Forall bit (zeros k ++ l)).
  { apply Forall_app. split; auto. unfold zeros. apply Forall_forall. intros x I. apply repeat_spec in I. left; auto. }
  destruct (bits_bytes (Z.to_nat n) (zeros k ++ l) HP) as (bs & B & LB & V & S).
  { rewrite app_length. unfold zeros. rewrite repeat_length. unfold k, len in *. lia. }
  rewrite be_val_zeros in V. assert (LBZ : len bs = n) by (unfold len; lia).
  assert (BS : bs = be_bytes (Z.to_nat n) (be_val 2 l)) by (rewrite <- V, <- LB; symmetry; apply be_bytes_val; auto).
  rewrite <- BS. pose proof (fromBin_spec bs arr B ltac:(lia) ltac:(lia)) as F. rewrite LBZ, LB, S in F. rewrite <- F. clear F.
  unfold fromBin. rewrite !len_map, len_app, len_zeros.
  replace (Z.of_nat k + len l) with (8 * n) by (unfold k; lia).
  destruct (Z.ltb_spec (len arr * 8) (len l)); [lia|]. destruct (Z.ltb_spec (len arr * 8) (8 * n)); [lia|].
  assert (E1 : len l / 8 + (if len l mod 8 =? 0 then 0 else 1) = n) by (destruct (Z.eqb_spec (len l mod 8) 0); unfold n; dlia).
  assert (E2 : 8 * n / 8 + (if 8 * n mod 8 =? 0 then 0 else 1) = n) by (destruct (Z.eqb_spec (8 * n mod 8) 0); dlia).
  rewrite E1, E2, map_app, rev_app_distr. 
  assert (MR : map (fun x => 48 + x) (zeros k) = repeat 48 k) by (unfold zeros; clear; generalize k; intros j; induction j; [reflexivity|cbn [repeat map]; rewrite IHj; reflexivity]).
  rewrite MR.
  assert (RV : rev (repeat 48 k) = repeat 48 k).
  { clear. induction k; auto. cbn [repeat rev]. rewrite IHk. clear. induction k; auto. cbn [repeat app]. now rewrite IHk. }
  rewrite RV, loop_pad; auto. apply Forall_rev, Forall_map. eapply Forall_impl; [|exact H]. intros x [-> | ->]; auto.
Qed.
Lemma fromBin_refuses : forall text arr, 8 * len arr < len text -> fromBin text arr = Ok (0, arr).
Proof. intros text arr H. unfold fromBin. destruct (Z.ltb_spec (len arr * 8) (len text)); auto; lia. Qed.
