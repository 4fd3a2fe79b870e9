(** Scalars of secp256k1: 32 bytes, most significant first, below the group order. *)
From Verif Require Import Base.Bytes Spec.Codecs Spec.Keys.
Open Scope Z_scope.

Definition number (s : list Z) : Z := be_val 256 s.
Definition word256 (s : list Z) : Prop := bytes_ok s /\ length s = 32%nat.
Definition is_scalar (s : list Z) : Prop := word256 s /\ number s < group_order.
(** The scalar congruent to an integer. *)
Definition scalar_of (v : Z) : list Z := be_bytes 32 (v mod group_order).
