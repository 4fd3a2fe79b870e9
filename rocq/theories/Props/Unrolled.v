(** The SHA-2 functions built with SHA2_UNROLL_TRANSFORM, and digests as text. *)
From Verif Require Import Base.Bytes Base.BytesFacts Model.Hash Model.Unrolled Model.Text Spec.Codecs Spec.Hash Proof.UnrolledFacts.
Open Scope Z_scope.

(** * C95 *)
(** One block: whatever the registers and the data are ... *)
Theorem C95_transform : forall st data, length st = 8%nat ->
  unrolled_Transform SHA_256 st data = sha2_Transform SHA_256 st data /\ unrolled_Transform SHA_512 st data = sha2_Transform SHA_512 st data.
Proof. exact (fun st data L => conj (unrolled_256 st data L) (unrolled_512 st data L)). Qed.
Print Assumptions C95_transform.
(** ... any data in any number of pieces: the hash is the one FIPS 180-4 defines ... *)
Theorem C95_sha256 : forall K H chunks, fips_constants fips256 K H -> Forall bytes_ok chunks -> len (concat chunks) < 2 ^ 61 ->
  u_hash SHA_256 chunks = fips_hash fips256 K H (concat chunks).
Proof. exact u256_fips. Qed.
Print Assumptions C95_sha256.
Theorem C95_sha512 : forall K H chunks, fips_constants fips512 K H -> Forall bytes_ok chunks -> len (concat chunks) < 2 ^ 125 -> Forall (fun d => len d < 2 ^ 61) chunks ->
  u_hash SHA_512 chunks = fips_hash fips512 K H (concat chunks).
Proof. exact u512_fips. Qed.
Print Assumptions C95_sha512.
(** ... and data of any size, longer too, gives what the other build gives. *)
Theorem C95_same : forall data, u_hash SHA_256 [data] = sha256 data /\ u_hash SHA_512 [data] = sha512 data.
Proof. exact (fun data => conj (u256 [data]) (u512 [data])). Qed.
Print Assumptions C95_same.
Example C95_ex : hex_string (u_hash SHA_256 [chars "a"; []; chars "bc"]) = chars "ba7816bf8f01cfea414140de5dae2223b00361a396177a9cb410ff61f20015ad".
Proof. vm_compute. reflexivity. Qed.

(** * C96 *)
(** sha256_Data and sha512_Data put the digest as lower-case hexadecimal text into the buffer, and touch nothing behind it. *)
Theorem C96_text : forall data b,
  (64 < len b -> exists out c off, sha2_Data SHA_256 data (Some b) = Ok (Some out, c, off) /\ cstr out = hex_string (sha256 data) /\ skipn 65 out = skipn 65 b) /\
  (128 < len b -> exists out c off, sha2_Data SHA_512 data (Some b) = Ok (Some out, c, off) /\ cstr out = hex_string (sha512 data) /\ skipn 129 out = skipn 129 b).
Proof. exact data_texts. Qed.
Print Assumptions C96_text.
(** A buffer without room for the NUL is overrun. *)
Theorem C96_room : forall data b, (len b <= 64 -> sha2_Data SHA_256 data (Some b) = UB) /\ (len b <= 128 -> sha2_Data SHA_512 data (Some b) = UB).
Proof. exact (fun data b => conj (data_short SHA_256 eq_refl data b) (data_short SHA_512 eq_refl data b)). Qed.
Print Assumptions C96_room.
(** The pointer returned points behind the text: what a caller reads there is always empty. *)
Theorem C96_returned_refuted : forall p data b out c off, p = SHA_256 \/ p = SHA_512 -> sha2_Data p data (Some b) = Ok (Some out, c, off) -> cstr (skipn (Z.to_nat off) out) = [].
Proof. exact returned_empty. Qed.
Print Assumptions C96_returned_refuted.
Example C96_ex : exists out c, sha2_Data SHA_256 (chars "abc") (Some (zeros 70)) = Ok (Some out, c, 64) /\
  cstr out = chars "ba7816bf8f01cfea414140de5dae2223b00361a396177a9cb410ff61f20015ad" /\ cstr (skipn 64 out) = [].
Proof. eexists _, _. vm_compute. auto. Qed.
