(** What the objects of the library stand for: the abstract value an object
    holds. Used in the statements of the properties. *)
From Verif Require Import Base.Bytes Spec.Codecs Spec.Wire Model.Stream Model.Script Model.Tx.
Open Scope Z_scope.

(** A Script holding the bytes [bs]. *)
Definition script_holds (s : script) (bs : list Z) : Prop :=
  sc_arr s = bs /\ sc_len s = len bs /\ bytes_ok bs /\ len bs < 2^31.

(** A Witness holding the elements [els]: they are stored in their wire form. *)
Definition witness_holds (w : witness) (els : list (list Z)) : Prop :=
  wi_arr w = flat_map wire_bytes els /\ wi_len w = len (flat_map wire_bytes els) /\ wi_num w = len els /\
  Forall bytes_ok els /\ len (flat_map wire_bytes els) < 2^31.

Definition txin_holds (t : txin) (i : s_txin) : Prop :=
  ti_hash t = si_prev i /\ length (si_prev i) = 32%nat /\ bytes_ok (si_prev i) /\
  ti_index t = si_vout i /\ 0 <= si_vout i < 2^32 /\ script_holds (ti_script t) (si_sig i) /\
  ti_seq t = si_seq i /\ 0 <= si_seq i < 2^32 /\ witness_holds (ti_wit t) (si_wit i).

Definition txout_holds (t : txout) (o : s_txout) : Prop :=
  to_amount t = so_value o /\ 0 <= so_value o < 2^64 /\ script_holds (to_script t) (so_script o).

Definition tx_holds (t : tx) (v : s_tx) : Prop :=
  t_version t = s_version v /\ 0 <= s_version v < 2^32 /\ t_lock t = s_lock v /\ 0 <= s_lock v < 2^32 /\
  Forall2 txin_holds (t_ins t) (s_ins v) /\ Forall2 txout_holds (t_outs t) (s_outs v).

(** [ser] gives, for every offset and buffer size, the corresponding slice of
    [full] (the rest of the buffer is cleared), and says how much it wrote. *)
Definition gives_slices (ser : serializer) (full : list Z) : Prop :=
  forall n off, 0 <= off ->
    let slice := firstn n (skipn (Z.to_nat off) full) in
    serialize ser n off = Ok (len slice, slice ++ zeros (n - length slice)).

(** Transactions small enough for one-byte counts everywhere. *)
Definition small_tx (v : s_tx) : Prop :=
  1 <= len (s_ins v) < 253 /\ len (s_outs v) < 253 /\ Forall (fun i => len (si_wit i) < 253) (s_ins v).
(** Equal up to the witnesses. *)
Definition same_but_witness (a b : s_tx) : Prop :=
  s_version a = s_version b /\ s_outs a = s_outs b /\ s_lock a = s_lock b /\
  map (fun i => (si_prev i, si_vout i, si_sig i, si_seq i)) (s_ins a) =
  map (fun i => (si_prev i, si_vout i, si_sig i, si_seq i)) (s_ins b).
(** Counts that a variable-length integer can hold. *)
Definition countable (v : s_tx) : Prop := len (s_ins v) < 2^64 /\ len (s_outs v) < 2^64.
(** The bytes in front of the first witness. *)
Definition before_witness (v : s_tx) : list Z :=
  le_bytes 4 (s_version v) ++ [0; 1] ++ wire_list wire_in (s_ins v) ++ wire_list wire_out (s_outs v).
(** A witness that can be parsed. *)
Definition wit_ok (i : s_txin) : Prop := len (si_wit i) < 253 /\ Forall bytes_ok (si_wit i) /\ len (flat_map wire_bytes (si_wit i)) < 2^31.
