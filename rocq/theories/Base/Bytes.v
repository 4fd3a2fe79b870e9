(** Machine integers, byte lists and outcomes used by every model file. *)
From Coq Require Export Ascii String ZArith Bool List.
Export ListNotations.
Open Scope Z_scope.

(** Unsigned C types: the value is kept reduced modulo the type's range. *)
Definition u8  (x : Z) : Z := x mod 2^8.
Definition u16 (x : Z) : Z := x mod 2^16.
Definition u32 (x : Z) : Z := x mod 2^32.
Definition u64 (x : Z) : Z := x mod 2^64.   (* uint64_t and size_t *)

(** [int] conversion of a 32-bit pattern (two's complement), as gcc and clang do it. *)
Definition i32 (x : Z) : Z :=
  let y := x mod 2^32 in if y <? 2^31 then y else y - 2^32.

Definition byte_ok (b : Z) : Prop := 0 <= b < 256.
Definition bytes_ok (l : list Z) : Prop := Forall byte_ok l.

(** Result of running a piece of C++ code: a value, or undefined behaviour
    (out-of-range access, over-wide shift, failed assert, use after free, ...). *)
Inductive outcome (A : Type) : Type :=
| Ok (a : A)
| UB.
Arguments Ok {A} a.
Arguments UB {A}.

Definition bind {A B} (x : outcome A) (f : A -> outcome B) : outcome B :=
  match x with Ok a => f a | UB => UB end.
Notation "'let!' x ':=' e 'in' k" := (bind e (fun x => k))
  (at level 200, x pattern, e at level 200, k at level 200, right associativity).

(** Length as an integer. *)
Definition len {A} (l : list A) : Z := Z.of_nat (List.length l).

(** Bounds-checked array access and update: outside the array is UB. *)
Definition aget (l : list Z) (i : Z) : outcome Z :=
  if (0 <=? i) && (i <? len l) then Ok (nth (Z.to_nat i) l 0) else UB.

Fixpoint set_nth (l : list Z) (i : nat) (v : Z) : list Z :=
  match l, i with
  | [], _ => []
  | _ :: t, O => v :: t
  | x :: t, S j => x :: set_nth t j v
  end.
Definition aset (l : list Z) (i : Z) (v : Z) : outcome (list Z) :=
  if (0 <=? i) && (i <? len l) then Ok (set_nth l (Z.to_nat i) v) else UB.

Definition zeros (n : nat) : list Z := repeat 0 n.

(** C string literals as lists of character codes. *)
Fixpoint chars (s : string) : list Z :=
  match s with
  | EmptyString => []
  | String c t => Z.of_N (N_of_ascii c) :: chars t
  end.

(** Position of the first occurrence. *)
Fixpoint index_of (c : Z) (l : list Z) : option Z :=
  match l with
  | [] => None
  | x :: t => if x =? c then Some 0 else option_map Z.succ (index_of c t)
  end.

(** [strchr(s, c) - s] of the C library: the terminating NUL is part of the string. *)
Definition strchr (s : list Z) (c : Z) : option Z := index_of c (s ++ [0]).

(** Number of leading elements satisfying a test. *)
Fixpoint count_while {A} (f : A -> bool) (l : list A) : nat :=
  match l with
  | [] => O
  | x :: t => if f x then S (count_while f t) else O
  end.

(** Value of a digit list, most significant first / least significant first. *)
Fixpoint be_acc (base acc : Z) (l : list Z) : Z :=
  match l with
  | [] => acc
  | d :: t => be_acc base (acc * base + d) t
  end.
Definition be_val (base : Z) (l : list Z) : Z := be_acc base 0 l.
Fixpoint le_val (base : Z) (l : list Z) : Z :=
  match l with
  | [] => 0
  | d :: t => d + base * le_val base t
  end.
