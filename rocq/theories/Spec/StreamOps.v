(** What a client of a byte stream can observe. *)
From Verif Require Import Base.Bytes Model.Stream.
Open Scope Z_scope.

(** Calls on a parse stream, and their results in order. *)
Inductive rop := RAvailable | RRead | RLast | RReadN (n : nat).
Definition rstep (s : pbs) (o : rop) : outcome (list Z * pbs) :=
  match o with
  | RAvailable => Ok ([pb_available s], s)
  | RRead => let! r := pb_read s in Ok ([fst r], snd r)
  | RLast => Ok ([pb_getLast s], s)
  | RReadN n => pb_read_n n s
  end.
Fixpoint rtrace (s : pbs) (ops : list rop) : outcome (list (list Z)) :=
  match ops with
  | [] => Ok []
  | o :: t => let! r := rstep s o in let! rs := rtrace (snd r) t in Ok (fst r :: rs)
  end.

(** Calls on a serialize stream; results and the buffer afterwards. *)
Inductive wop := WAvailable | WWrite (b : Z) | WWriteN (l : list Z).
Definition wop_ok (o : wop) : Prop :=
  match o with WAvailable => True | WWrite b => byte_ok b | WWriteN l => bytes_ok l end.
Definition wstep (s : sbs) (o : wop) : outcome (Z * sbs) :=
  match o with
  | WAvailable => Ok (sb_available s, s)
  | WWrite b => sb_write s b
  | WWriteN l => sb_write_n s l
  end.
Fixpoint wtrace (s : sbs) (ops : list wop) : outcome (list Z * list Z) :=
  match ops with
  | [] => Ok ([], sb_buf s)
  | o :: t => let! r := wstep s o in let! rs := wtrace (snd r) t in Ok (fst r :: fst rs, snd rs)
  end.
(** The same on a plain list of capacity [n]: what has been written so far. *)
Definition lstep (n : nat) (w : list Z) (o : wop) : Z * list Z :=
  match o with
  | WAvailable => (Z.of_nat n - len w, w)
  | WWrite b => if len w <? Z.of_nat n then (1, w ++ [b]) else (0, w)
  | WWriteN l => let k := Nat.min (length l) (n - length w) in (Z.of_nat k, w ++ firstn k l)
  end.
Fixpoint ltrace (n : nat) (w : list Z) (ops : list wop) : list Z * list Z :=
  match ops with
  | [] => ([], w)
  | o :: t => let r := lstep n w o in let rs := ltrace n (snd r) t in (fst r :: fst rs, snd rs)
  end.
