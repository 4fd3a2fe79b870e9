(** The curve secp256k1 (SEC 2) and the encodings of its points (SEC 1, 2.3.3). *)
From Verif Require Import Base.Bytes Spec.Codecs.
Open Scope Z_scope.

Definition field_prime : Z := 2^256 - 2^32 - 977.
(** The finite points of y^2 = x^3 + 7. *)
Definition on_curve (x y : Z) : Prop :=
  0 <= x < field_prime /\ 0 <= y < field_prime /\ (y * y) mod field_prime = (x * x * x + 7) mod field_prime.
(** x is a coordinate of some point. *)
Definition on_curve_x (x : Z) : Prop := exists y, on_curve x y.
Definition coords (x y : Z) : list Z := be_bytes 32 x ++ be_bytes 32 y.
Definition sec_bytes (compressed : bool) (x y : Z) : list Z :=
  if compressed then (2 + y mod 2) :: be_bytes 32 x else 4 :: coords x y.

(** Two objects of one kind parsed turn by turn, with a variable [V] that the parser keeps between
    calls. [false] means a chunk for the first object, [true] one for the second. *)
Section Two.
Context {K V : Type}.
Variable parse : K * V -> list Z -> outcome ((K * V) * Z * list Z).
Fixpoint run_two (sched : list (bool * list Z)) (a b : K) (v : V) : outcome (K * K) :=
  match sched with
  | [] => Ok (a, b)
  | (false, c) :: t => let! r := parse (a, v) c in let '((a', v'), _, _) := r in run_two t a' b v'
  | (true, c) :: t => let! r := parse (b, v) c in let '((b', v'), _, _) := r in run_two t a b' v'
  end.
End Two.
(** The chunks for one of them. *)
Definition chunks_for (who : bool) (sched : list (bool * list Z)) : list (list Z) :=
  map snd (filter (fun c => Bool.eqb (fst c) who) sched).
