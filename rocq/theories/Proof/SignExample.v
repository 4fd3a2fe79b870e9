(** Known signatures: multiples of the generator and hashes by computation. *)
From Coq Require Import Lia Znumtheory Setoid Morphisms.
From Verif Require Import Base.Bytes Base.BytesFacts Spec.Codecs Spec.Hash Spec.Keys Spec.Point Spec.Curve Spec.Scalar Spec.Schemes Model.Hash
  Proof.CurveFacts Proof.EcGroup Proof.EcTable Proof.EcMult Proof.EcApi Proof.EcdsaFacts Proof.HashProps Proof.SignHints.
Open Scope Z_scope.

Definition mul_chk (ds : list Z) (hs : list (Z * Z * Z)) : option (Z * Z) :=
  match table_vals, ds with
  | row :: rows, d :: ds => match signed_at row d with Some (x, y) => sum_chk x y rows ds hs | None => None end
  | _, _ => None
  end.
Lemma mul_chk_ok : forall ds hs r k, mul_chk ds hs = Some r -> 0 <= k -> le_val 16 ds mod N = k mod N -> ec_mul k gen = Some r.
Proof.
  intros ds hs r k C K E. unfold mul_chk in C. destruct table_vals as [|row rows] eqn:TV; [discriminate|]. destruct ds as [|d ds]; [discriminate|]. destruct (signed_at row d) as [[x y]|] eqn:S; [|discriminate].
  assert (R0 : nth_error table_vals 0 = Some row) by (rewrite TV; reflexivity). pose proof (signed_at_ok 0 row d x y R0 S) as X. change (16 ^ Z.of_nat 0) with 1 in X.
  assert (RR : forall m : nat, nth_error table_vals (1 + m) = nth_error rows m) by (intros m; rewrite TV; reflexivity). pose proof (sum_chk_ok rows ds hs 1 x y (1 * d) _ RR X C) as SC.
  rewrite ec_mul_smul, SC by auto. apply smul_eqm; [apply gen_point|]. unfold eqm. rewrite <- E. f_equal. cbn [le_val]. change (16 ^ Z.of_nat 1) with 16. lia.
Qed.
Lemma satoshi_mul : ec_mul satoshi_k gen = Some satoshi_point.
Proof. apply (mul_chk_ok satoshi_digits satoshi_hints); [vm_compute; reflexivity|discriminate|vm_compute; reflexivity]. Qed.
Lemma wide_mul : ec_mul wide_k gen = Some wide_point.
Proof. apply (mul_chk_ok wide_digits wide_hints); [vm_compute; reflexivity|discriminate|vm_compute; reflexivity]. Qed.
Lemma schnorr_mul : ec_mul schnorr_k gen = Some schnorr_point.
Proof. apply (mul_chk_ok schnorr_digits schnorr_hints); [vm_compute; reflexivity|discriminate|vm_compute; reflexivity]. Qed.

(** ** Hashes *)
Notation sha := (fips_hash fips256 K256 H256).
Notation hmac := (rfc2104 sha 64).
(** SHA-256 of "Satoshi Nakamoto", and the order plus 5. *)
Definition satoshi_hash : list Z := be_bytes 32 0xa0dc65ffca799873cbea0ac274015b9526505daaaed385155425f7337704883e.
Definition wide_hash : list Z := be_bytes 32 (group_order + 5).
Definition wide_reduced_k : Z := 0x2707e03e7f40f39667d5acd867d25d6e29ff18976642e7f9bd45d0f07d57b174.
Definition one : list Z := be_bytes 32 1.
Lemma satoshi_sha : satoshi_hash = sha (chars "Satoshi Nakamoto").
Proof. vm_compute. reflexivity. Qed.
Lemma satoshi_nonce : rfc6979_number hmac one satoshi_hash 0 = satoshi_k.
Proof. vm_compute. reflexivity. Qed.
Lemma wide_nonce : rfc6979_number hmac one wide_hash 0 = wide_k.
Proof. vm_compute. reflexivity. Qed.
Lemma wide_reduced : rfc6979_nonce hmac 1 wide_hash 0 = wide_reduced_k.
Proof. vm_compute. reflexivity. Qed.
Lemma satoshi_sig : ecdsa_signature 1 (number satoshi_hash) satoshi_k
  0x934b1ea10a4b3c1757e2b0c017d0b6143ce3c9a7e6a4a49860d7a6ab210ee3d8 0x2442ce9d2b916064108014783e923ec36b49743e2ffa1c4496f01a512aafd9e5 1.
Proof.
  split; [split; reflexivity|]. exists (fst satoshi_point), (snd satoshi_point), 0x1a40580a26a595df10ff8c52e3cc302d0dbd587ed8a798b3e341c19765b90759.
  eexists. split; [exact satoshi_mul|]. split; [vm_compute; reflexivity|]. split; [vm_compute; reflexivity|]. split; [discriminate|]. split; [reflexivity|].
  repeat split; vm_compute; try discriminate; reflexivity.
Qed.
Lemma wide_sig : ecdsa_signature 1 (number wide_hash) wide_k
  0xd695e4d0a4e55d1fdb93e4e22980360198f1e5dbe9200920fc43d248ef1ee0f9 0x1236bbb3b79c1488c602285b659373ac1f1f21d5c6119576cb1992368236a38e 0.
Proof.
  split; [split; reflexivity|]. exists (fst wide_point), (snd wide_point), 0xf4c0f31cc396257558ca4a96d49484e694f28f172e7d952366b8f9ec9b5af646.
  eexists. split; [exact wide_mul|]. split; [vm_compute; reflexivity|]. split; [vm_compute; reflexivity|]. split; [discriminate|]. split; [reflexivity|].
  repeat split; vm_compute; try discriminate; reflexivity.
Qed.
Lemma schnorr_nonce : number (bip340_hash sha (chars "BIP0340/nonce") (one ++ be_bytes 32 gen_x ++ satoshi_hash)) = schnorr_k.
Proof. vm_compute. reflexivity. Qed.
Lemma schnorr_challenge : number (bip340_hash sha (chars "BIP0340/challenge") (be_bytes 32 (fst schnorr_point) ++ be_bytes 32 gen_x ++ satoshi_hash)) =
  0x717106a53ec072921594140f30c5ec7fe45f12e44945915b3ec5d25e2d3ee350.
Proof. vm_compute. reflexivity. Qed.
