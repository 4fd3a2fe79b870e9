(** Words used to state C92. *)
From Verif Require Import Base.Bytes Spec.Scalar Model.HD Model.Parts.
Open Scope Z_scope.

(** Arguments in the range of their types. *)
Definition parts_ok (p : parts) : Prop :=
  word256 (pa_chain p) /\ byte_ok (pa_depth p) /\ bytes_ok (pa_print p) /\ length (pa_print p) = 4%nat /\ 0 <= pa_child p < 2^32.
(** A key that is what the arguments say. *)
Definition prv_holds (k : hdpriv) (secret : list Z) (p : parts) : Prop :=
  hk_num k = secret /\ hk_chain k = pa_chain p /\ hk_depth k = pa_depth p /\ hk_fp k = pa_print p /\ hk_child k = pa_child p /\
  hk_net k = pa_net p /\ hk_type k = pa_type p.
Definition pub_holds (k : hdpub) (point : list Z) (p : parts) : Prop :=
  hp_point k = point /\ hp_chain k = pa_chain p /\ hp_depth k = pa_depth p /\ hp_fp k = pa_print p /\ hp_child k = pa_child p /\
  hp_net k = pa_net p /\ hp_type k = pa_type p.
(** The arguments that describe a key. *)
Definition parts_of (k : hdpriv) : parts := mkParts (hk_chain k) (hk_depth k) (Some (hk_fp k)) (hk_child k) (hk_net k) (hk_type k).
