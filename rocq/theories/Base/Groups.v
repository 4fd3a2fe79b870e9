(** Cutting a list into consecutive groups of [n] elements. *)
From Verif Require Import Base.Bytes.

Fixpoint groups_f {A} (fuel n : nat) (l : list A) : list (list A) :=
  match fuel with
  | O => []
  | S fuel' =>
      match l with
      | [] => []
      | _ => firstn n l :: groups_f fuel' n (skipn n l)
      end
  end.
(** [groups n l] for [n >= 1]: the last group may be shorter. *)
Definition groups {A} (n : nat) (l : list A) : list (list A) := groups_f (length l) n l.
