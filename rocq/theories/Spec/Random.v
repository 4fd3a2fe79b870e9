(** What it means that nothing is preferred when random numbers are chosen from random words. *)
From Verif Require Import Base.Bytes.
Open Scope Z_scope.

Definition word32 (w : Z) : Prop := 0 <= w < 2 ^ 32.
(** How many of the 2^32 words stand for each of n numbers. *)
Definition share (n : Z) : Z := (2 ^ 32 - 1) / n.
(** Positions to exchange with: at most i, then at most i - 1, down to at most 1. *)
Fixpoint picks_ok (i : nat) (js : list Z) : Prop :=
  match i, js with
  | O, [] => True
  | S i', j :: js' => 0 <= j <= Z.of_nat i /\ picks_ok i' js'
  | _, _ => False
  end.
(** Each word is one of the [share (i + 1)] words that stand for its position. *)
Fixpoint words_pick (i : nat) (js ws : list Z) : Prop :=
  match i, js, ws with
  | O, [], [] => True
  | S i', j :: js', w :: ws' => j * share (Z.of_nat i + 1) <= w < (j + 1) * share (Z.of_nat i + 1) /\ words_pick i' js' ws'
  | _, _, _ => False
  end.
