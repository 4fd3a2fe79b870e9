(** Extended public keys with the real point decompression. *)
From Coq Require Import Lia.
From Verif Require Import Base.Bytes Base.BytesFacts Spec.Codecs Spec.Point Spec.HD Model.Stream Model.Networks Model.Point Model.HD
  Proof.PointFacts Proof.PointProps Proof.PointChunks Proof.HDPub.
Open Scope Z_scope.

Lemma sec_of_coords : forall x y, sec_of (coords x y) = sec_bytes true x y.
Proof. intros. rewrite <- pt_bytes_coords. reflexivity. Qed.
Lemma uncompress_coords_ok : forall x y g, on_curve x y -> uncompress_pubkey (sec_bytes true x y) g = Ok (coords x y).
Proof.
  intros x y g O. cbn [sec_bytes]. destruct (uncompress_33 (2 + y mod 2) (be_bytes 32 x) g) as [(y' & O' & M & U)|[N _]].
  - clear. dlia.
  - apply IntVarint.be_bytes_ok.
  - apply IntVarint.be_bytes_length.
  - rewrite be_round in * by apply O. rewrite U. do 2 f_equal. apply (curve_unique x); auto. rewrite M. clear. dlia.
  - exfalso. rewrite be_round in N by apply O. apply (N y); auto. clear. dlia.
Qed.
Lemma valid_bytes_ok : forall x y, on_curve x y -> pt_valid_bytes (coords x y) = true.
Proof.
  intros x y O. unfold pt_valid_bytes. destruct (is_valid_ok (coords x y) true 0 (coords_ok x y) (coords_len x y)) as (b & V & Hv).
  rewrite V. apply Hv, valid_coords. auto.
Qed.
Lemma xpub_points : forall garbage test t v k k0 rest x y, slip132_pub test t = Some v ->
  hp_net k = net_of test -> hp_type k = t -> hp_sized k -> hp_valued k -> hp_sized k0 -> hp_status k0 = DONE ->
  hp_point k = coords x y -> on_curve x y ->
  hp_hex k = bip32_bytes v (hp_depth k) (hp_fp k) (hp_child k) (hp_chain k) (sec_bytes true x y) /\
  hp_parse uncompress_pubkey pt_valid_bytes garbage k0 (hp_hex k ++ rest) =
  Ok (mkHp (hp_point k) (hp_chain k) (hp_depth k) (hp_fp k) (hp_child k) (hp_net k) (hp_type k) (be_bytes 4 v) DONE 78, 78, rest).
Proof.
  intros garbage test t v k k0 rest x y H1 H2 H3 H4 H5 H6 H7 E O. rewrite <- sec_of_coords, <- E. apply (hp_roundtrip _ _ _ test t v k k0 rest); auto.
  - rewrite E, sec_of_coords. apply uncompress_coords_ok. auto.
  - rewrite E. apply valid_bytes_ok. auto.
Qed.
Lemma xpub_over : forall garbage test t v dp fp cn ch xs k0 rest, slip132_pub test t = Some v -> hp_sized k0 -> hp_status k0 = DONE ->
  length fp = 4%nat -> length ch = 32%nat -> length xs = 32%nat -> 0 <= cn < 2^32 ->
  hp_parse uncompress_pubkey pt_valid_bytes garbage k0 (bip32_bytes v dp fp cn ch (4 :: xs) ++ rest) = UB.
Proof.
  intros garbage test t v dp fp cn ch xs k0 rest H1 H2 H3 H4 H5 H6 H7.
  rewrite (hp_reads uncompress_pubkey pt_valid_bytes garbage test t v dp fp cn ch (4 :: xs) k0 rest); auto; [|cbn [length]; lia].
  unfold uncompress_pubkey. rewrite read_short by auto. reflexivity.
Qed.
