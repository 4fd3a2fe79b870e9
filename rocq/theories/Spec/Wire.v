(** Bitcoin's wire formats and incremental parsing, independent of the model. *)
From Verif Require Import Base.Bytes Spec.Codecs Model.Stream.
Open Scope Z_scope.

(** A byte string with its length in front. *)
Definition wire_bytes (bs : list Z) : list Z := compact_size (len bs) ++ bs.

Record s_txin := { si_prev : list Z; si_vout : Z; si_sig : list Z; si_seq : Z; si_wit : list (list Z) }.
Record s_txout := { so_value : Z; so_script : list Z }.
Record s_tx := { s_version : Z; s_ins : list s_txin; s_outs : list s_txout; s_lock : Z }.

Definition wire_in (i : s_txin) : list Z :=
  si_prev i ++ le_bytes 4 (si_vout i) ++ wire_bytes (si_sig i) ++ le_bytes 4 (si_seq i).
Definition wire_out (o : s_txout) : list Z := le_bytes 8 (so_value o) ++ wire_bytes (so_script o).
Definition wire_witness (w : list (list Z)) : list Z := compact_size (len w) ++ flat_map wire_bytes w.
Definition wire_list {E} (f : E -> list Z) (l : list E) : list Z := compact_size (len l) ++ flat_map f l.

(** The original serialization, and the one with witnesses (BIP 144). *)
Definition wire_legacy (t : s_tx) : list Z :=
  le_bytes 4 (s_version t) ++ wire_list wire_in (s_ins t) ++ wire_list wire_out (s_outs t) ++ le_bytes 4 (s_lock t).
Definition wire_segwit (t : s_tx) : list Z :=
  le_bytes 4 (s_version t) ++ [0; 1] ++ wire_list wire_in (s_ins t) ++ wire_list wire_out (s_outs t)
  ++ flat_map (fun i => wire_witness (si_wit i)) (s_ins t) ++ le_bytes 4 (s_lock t).
Definition has_witness (t : s_tx) : bool := existsb (fun i => negb (len (si_wit i) =? 0)) (s_ins t).
Definition wire_tx (t : s_tx) : list Z := if has_witness t then wire_segwit t else wire_legacy t.

(** Value ranges. *)
Definition in_ok (i : s_txin) : Prop :=
  length (si_prev i) = 32%nat /\ bytes_ok (si_prev i) /\ 0 <= si_vout i < 2^32 /\ 0 <= si_seq i < 2^32 /\
  bytes_ok (si_sig i) /\ len (si_sig i) < 2^31 /\ Forall bytes_ok (si_wit i).
Definition out_ok (o : s_txout) : Prop :=
  0 <= so_value o < 2^64 /\ bytes_ok (so_script o) /\ len (so_script o) < 2^31.
Definition tx_ok (t : s_tx) : Prop :=
  0 <= s_version t < 2^32 /\ 0 <= s_lock t < 2^32 /\ Forall in_ok (s_ins t) /\ Forall out_ok (s_outs t).

(** ** Incremental parsing

    A parser takes its object's state and the bytes of one chunk, and gives the
    new state, the number of bytes it says it read, and the bytes left over. *)
Section Feed.
Context {St : Type}.
Variable parse : St -> list Z -> outcome (St * Z * list Z).
Variable status : St -> pstatus.

(** Feed chunks one after the other until the object is complete or has failed;
    what was not read is put in front of the chunks not yet used. *)
Fixpoint feed (st : St) (chunks : list (list Z)) : outcome (St * Z * list Z) :=
  match chunks with
  | [] => Ok (st, 0, [])
  | c :: t =>
      let! r := parse st c in
      let '(st1, n1, rest) := r in
      match status st1 with
      | INCOMPLETE => let! r2 := feed st1 t in
                      let '(st2, n2, rest2) := r2 in Ok (st2, n1 + n2, rest ++ rest2)
      | _ => Ok (st1, n1, rest ++ concat t)
      end
  end.

(** Same outcome: equal, or both report failure. *)
Definition failed (r : outcome (St * Z * list Z)) : Prop :=
  exists st n rest, r = Ok (st, n, rest) /\ status st = FAILED.
Definition same_result (r1 r2 : outcome (St * Z * list Z)) : Prop := r1 = r2 \/ (failed r1 /\ failed r2).

(** The way the bytes are cut does not matter, whenever parsing them in one go
    is defined. *)
Definition chunk_invariant (st : St) : Prop :=
  forall chunks, chunks <> [] -> Forall (fun c => c <> [] /\ bytes_ok c) chunks ->
    parse st (concat chunks) <> UB ->
    same_result (feed st chunks) (parse st (concat chunks)).
End Feed.
