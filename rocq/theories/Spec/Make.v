(** Words used to state C89. *)
From Verif Require Import Base.Bytes Spec.Codecs Spec.Wire.
Open Scope Z_scope.

(** No character is a hexadecimal digit. *)
Definition no_digits (ws : list Z) : Prop := Forall (fun c => ~ exists v, is_hex_digit c v) ws.
(** The transaction that spends output [i] of the transaction with identifier [prev] (as it is stored) to one script. *)
Definition pay (prev : list Z) (i q amount : Z) (script : list Z) : s_tx := {|
  s_version := 1;
  s_ins := [{| si_prev := prev; si_vout := i; si_sig := []; si_seq := q; si_wit := [] |}];
  s_outs := [{| so_value := amount; so_script := script |}];
  s_lock := 0 |}.
