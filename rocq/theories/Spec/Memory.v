(** Specification side of the memory property. *)
From Verif Require Import Base.Bytes Model.Stream Model.Script Model.Memory.
Open Scope Z_scope.

(** The bytes given to a parser are bytes. *)
Definition script_call (o : sop) : Prop := match o with SParse _ bytes => bytes_ok bytes | _ => True end.
Definition witness_call (o : wop) : Prop := match o with WParse _ bytes => bytes_ok bytes | _ => True end.

(** No witness that had elements is left without any, and no parse failed. *)
Definition intact (before after : list (option mwitness)) : Prop :=
  forall i m m', obj before i = Some m -> obj after i = Some m' ->
    (mw_len m' = 0 -> mw_len m = 0) /\ wi_status (mw_val m') <> FAILED.
Fixpoint always_intact (st : wstate) (ops : list wop) : Prop :=
  match ops with
  | [] => True
  | o :: t =>
      match wstep st o with
      | Ok (Some st') => intact (snd st) (snd st') /\ always_intact st' t
      | _ => True
      end
  end.
