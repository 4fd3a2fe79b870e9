(** What a copy must agree on with the original. *)
From Verif Require Import Base.Bytes Model.Stream Model.Script Model.Tx Model.PSBT.
Open Scope Z_scope.

(** Lengths are never negative. *)
Definition sizes_ok (t : tx) : Prop :=
  Forall (fun i => 0 <= sc_len (ti_script i) /\ 0 <= wi_len (ti_wit i)) (t_ins t) /\ Forall (fun o => 0 <= sc_len (to_script o)) (t_outs t).

(** The members that a user can read. *)
Definition script_bytes (s : script) : list Z := firstn (Z.to_nat (sc_len s)) (sc_arr s).
Definition same_in (a b : txin) : Prop :=
  ti_hash a = ti_hash b /\ ti_index a = ti_index b /\ ti_seq a = ti_seq b /\ script_bytes (ti_script a) = script_bytes (ti_script b) /\
  wi_num (ti_wit a) = wi_num (ti_wit b) /\ firstn (Z.to_nat (wi_len (ti_wit a))) (wi_arr (ti_wit a)) = firstn (Z.to_nat (wi_len (ti_wit b))) (wi_arr (ti_wit b)).
Definition same_out (a b : txout) : Prop := to_amount a = to_amount b /\ script_bytes (to_script a) = script_bytes (to_script b).
Definition same_tx (a b : tx) : Prop :=
  t_version a = t_version b /\ t_lock a = t_lock b /\ t_status a = t_status b /\ Forall2 same_in (t_ins a) (t_ins b) /\ Forall2 same_out (t_outs a) (t_outs b).
(** Of a PSBT: all but the scripts of the parser. *)
Definition same_inmeta (a b : inmeta) : Prop :=
  same_out (im_out a) (im_out b) /\ im_ders a = im_ders b /\ im_sigs a = im_sigs b /\
  script_bytes (im_redeem a) = script_bytes (im_redeem b) /\ script_bytes (im_witness a) = script_bytes (im_witness b).
Definition same_outmeta (a b : outmeta) : Prop :=
  om_ders a = om_ders b /\ script_bytes (om_redeem a) = script_bytes (om_redeem b) /\ script_bytes (om_witness a) = script_bytes (om_witness b).
Definition same_psbt (q p : psbt) : Prop :=
  same_tx (ps_tx q) (ps_tx p) /\ ps_status q = ps_status p /\
  (forall i, 0 <= i < len (t_ins (ps_tx p)) -> exists a b, at_ptr (ps_ins q) i = Ok a /\ at_ptr (ps_ins p) i = Ok b /\ same_inmeta a b) /\
  (forall i, 0 <= i < len (t_outs (ps_tx p)) -> exists a b, at_ptr (ps_outs q) i = Ok a /\ at_ptr (ps_outs p) i = Ok b /\ same_outmeta a b).
