(** The digests have the right number of bytes, whatever is hashed. *)
From Coq Require Import Lia.
From Verif Require Import Base.Bytes Base.BytesFacts Spec.Scalar Model.Hash Proof.HDReal.
Open Scope Z_scope.

Lemma sha256_shape : forall m, length (sha256 m) = 32%nat /\ bytes_ok (sha256 m).
Proof. intros m. apply (final_shape SHA_256). rewrite update_st. reflexivity. Qed.
Lemma doubleSha_word : forall m, word256 (doubleSha m).
Proof.
  intros m. unfold doubleSha, hashData, DoubleSha_obj. cbn [o_end o_write o_new]. destruct (sha2_Final SHA_256 _) as [h c]. cbn [fst]. destruct (sha256_shape h). split; auto.
Qed.
Lemma process_len : forall st data, length (rmd_process st data) = 5%nat.
Proof. intros. unfold rmd_process. destruct (fold_left _ _ _). reflexivity. Qed.
Lemma rmd_blocks_st : forall fuel c left data, length (h_state c) = 5%nat -> length (h_state (rmd_blocks fuel c left data)) = 5%nat.
Proof.
  induction fuel as [|f IH]; intros c left data L; cbn [rmd_blocks]; [exact L|]. destruct (_ <=? _); [apply IH; apply process_len|]. destruct (_ <? _); exact L.
Qed.
Lemma rmd_update_st : forall c data, length (h_state c) = 5%nat -> length (h_state (rmd_Update c data)) = 5%nat.
Proof.
  intros c data L. unfold rmd_Update. destruct (_ =? 0); [exact L|]. destruct (_ && _); apply rmd_blocks_st; [apply process_len|exact L].
Qed.
Lemma put_shape : forall n, length (PUT_UINT32_LE n) = 4%nat /\ bytes_ok (PUT_UINT32_LE n).
Proof.
  intros n. split; [reflexivity|]. unfold PUT_UINT32_LE. change 255 with (Z.ones 8). rewrite !Z.land_ones by lia.
  repeat constructor; try apply Z.mod_pos_bound; reflexivity.
Qed.
Lemma rmd160_shape : forall m, length (rmd160 m) = 20%nat /\ bytes_ok (rmd160 m).
Proof.
  intros m. unfold rmd160, rmd_Final. destruct (h_count _) as [t0 t1]. cbn [fst].
  match goal with |- context [h_state ?c] => assert (L : length (h_state c) = 5%nat) by (do 3 apply rmd_update_st; reflexivity); generalize dependent (h_state c) end.
  intros l L. destruct l as [|a [|b [|c [|d [|e [|? ?]]]]]]; try discriminate. cbn [flat_map]. rewrite !app_length. rewrite !(proj1 (put_shape _)). split; [reflexivity|].
  repeat (apply bytes_ok_app; split; [apply put_shape|]). constructor.
Qed.
Lemma hash160_shape : forall m, length (hash160 m) = 20%nat /\ bytes_ok (hash160 m).
Proof. intros m. unfold hash160, hashData, Hash160_obj. cbn [o_end o_write o_new]. destruct (sha2_Final SHA_256 _) as [h c]. cbn [fst]. apply rmd160_shape. Qed.
