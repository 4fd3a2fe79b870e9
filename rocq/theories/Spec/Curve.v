(** The group of points of secp256k1 (SEC 1, 2.2.1; SEC 2, 2.4.1). *)
From Verif Require Import Base.Bytes Spec.Point.
Open Scope Z_scope.

(** [None] is the point at infinity. *)
Definition point : Type := option (Z * Z).
Definition is_point (a : point) : Prop := match a with Some (x, y) => on_curve x y | None => True end.

(** a / b modulo the field prime p; the inverse of b is b^(p-2). *)
Definition fdiv (a b : Z) : Z := (a * b ^ (field_prime - 2)) mod field_prime.
(** The third point of the line with slope [l] through points at x1, x2, mirrored. *)
Definition ec_third (l x1 y1 x2 : Z) : point :=
  let x := (l * l - x1 - x2) mod field_prime in Some (x, (l * (x1 - x) - y1) mod field_prime).
Definition ec_add (a b : point) : point :=
  match a, b with
  | None, _ => b
  | _, None => a
  | Some (x1, y1), Some (x2, y2) =>
      if x1 =? x2 then if (y1 + y2) mod field_prime =? 0 then None else ec_third (fdiv (3 * x1 * x1) (2 * y1)) x1 y1 x2
      else ec_third (fdiv (y1 - y2) (x1 - x2)) x1 y1 x2
  end.
Definition ec_neg (a : point) : point := match a with Some (x, y) => Some (x, (- y) mod field_prime) | None => None end.
(** k times a point. *)
Definition ec_mul (k : Z) (a : point) : point := Nat.iter (Z.to_nat k) (ec_add a) None.

Definition gen_x : Z := 0x79be667ef9dcbbac55a06295ce870b07029bfcdb2dce28d959f2815b16f81798.
Definition gen_y : Z := 0x483ada7726a3c4655da4fbfc0e1108a8fd17b448a68554199c47d08ffb10d4b8.
Definition gen : point := Some (gen_x, gen_y).
