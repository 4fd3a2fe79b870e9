(** What the limbs of a bignum256 mean. *)
From Verif Require Import Base.Bytes.
Open Scope Z_scope.

(** The number the limbs stand for: base 2^30, least significant limb first. *)
Definition bn_val (x : list Z) : Z := le_val (2^30) x.
Definition words_ok (b : Z) (l : list Z) : Prop := Forall (fun d => 0 <= d < b) l.
(** Nine limbs below 2^30; nine 32 bit words. *)
Definition normalized (x : list Z) : Prop := length x = 9%nat /\ words_ok (2^30) x.
Definition unnormalized (x : list Z) : Prop := length x = 9%nat /\ words_ok (2^32) x.
(** The moduli the library is written for. *)
Definition modulus (m : list Z) : Prop := normalized m /\ 2^256 - 2^224 < bn_val m < 2^256.
(** Reduced completely, or below twice the modulus. *)
Definition reduced (x m : list Z) : Prop := normalized x /\ bn_val x < bn_val m.
Definition partly_reduced (x m : list Z) : Prop := normalized x /\ bn_val x < 2 * bn_val m.
