(** Words used to state C83 and C84. *)
From Verif Require Import Base.Bytes Spec.Codecs Spec.Wire.
Open Scope Z_scope.

(** Text in a C string. *)
Definition no_nul (l : list Z) : Prop := Forall (fun c => c <> 0) l.
(** Two characters that are not both hexadecimal digits. *)
Definition not_hex (a b : Z) : Prop := (~ exists v, is_hex_digit a v) \/ (~ exists v, is_hex_digit b v).
(** The transaction with another lock time. *)
Definition with_lock (v : s_tx) (l : Z) : s_tx := {| s_version := s_version v; s_ins := s_ins v; s_outs := s_outs v; s_lock := l |}.
(** The last [j] of the four little endian bytes of [x] replaced by 255. *)
Definition top_ones (j x : Z) : Z := x mod 256^(4 - j) + (2^32 - 256^(4 - j)).

(** A base64 digit and its value. *)
Definition b64_digit (c d : Z) : Prop := 0 <= d < 64 /\ c = nth (Z.to_nat d) (b64_alphabet false) 0.
(** What the decoder takes base64 text for. A group with '=' (61) as its third or fourth character is the last one that counts:
    whatever follows has no meaning, and the spare low bits of the last digit are dropped. *)
Inductive b64_reads : list Z -> list Z -> Prop :=
| br_end : b64_reads [] []
| br_four : forall c0 c1 c2 c3 d0 d1 d2 d3 t bs, b64_digit c0 d0 -> b64_digit c1 d1 -> b64_digit c2 d2 -> b64_digit c3 d3 -> b64_reads t bs ->
    b64_reads (c0 :: c1 :: c2 :: c3 :: t) (be_bytes 3 (((d0 * 64 + d1) * 64 + d2) * 64 + d3) ++ bs)
| br_three : forall c0 c1 c2 d0 d1 d2 t, b64_digit c0 d0 -> b64_digit c1 d1 -> b64_digit c2 d2 ->
    b64_reads (c0 :: c1 :: c2 :: 61 :: t) (be_bytes 2 (((d0 * 64 + d1) * 64 + d2) / 4))
| br_two : forall c0 c1 x d0 d1 t, b64_digit c0 d0 -> b64_digit c1 d1 ->
    b64_reads (c0 :: c1 :: 61 :: x :: t) [(d0 * 64 + d1) / 16].
